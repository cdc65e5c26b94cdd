(** Invariant behind C89. *)
From Verif Require Import Words LockModel LockSpec.

(** ** the shape of the stack of calls *)
Definition before (f : nat * pc) : Prop := snd f = AtTest \/ snd f = AtDis1.
Definition waiting (f : nat * pc) : Prop := snd f = AtTest.
Inductive shape : list (nat * pc) -> bool -> bool -> Prop :=
| sh_free : forall c irq, Forall before c -> shape c false irq
| sh_top : forall i p c, p = AtSet \/ p = AtEn2 -> Forall before c -> shape ((i, p) :: c) false false
| sh_irq : forall i p c, p = AtEn1 \/ p = AtClear -> Forall before c -> shape ((i, p) :: c) true false
| sh_held : forall up i p c, Forall waiting up -> p = AtBegin \/ p = AtBody \/ p = AtDis2 -> Forall before c ->
    shape (up ++ (i, p) :: c) true true.

Lemma shape_step : forall a s, shape (l_calls s) (l_lock s) (l_irq s) ->
  shape (l_calls (lstep s a)) (l_lock (lstep s a)) (l_irq (lstep s a)).
Proof.
  intros a [c lock irq n log] H. cbn [l_calls l_lock l_irq] in H. destruct a as [|more].
  - destruct c as [|f c].
    + cbn. inversion H as [c' irq' B|i p c' P B|i p c' P B|up i p c' U P B]; subst.
      * constructor. constructor; [left; reflexivity|constructor].
      * exfalso. apply (app_cons_not_nil up c' (i, p)). symmetry. assumption.
    + cbn [lstep l_calls l_irq]. destruct irq; [|exact H]. cbn.
      inversion H as [c' irq' B|i p c' P B|i p c' P B|up i p c' U P B E]; subst.
      * constructor. constructor; [left; reflexivity|assumption].
      * apply (sh_held ((n, AtTest) :: up) i p c'); [constructor; [reflexivity|assumption]|assumption|assumption].
  - destruct c as [|[i p] c]; [exact H|]. cbn [lstep l_calls l_lock l_irq].
    inversion H as [c' irq' B|i' p' c' P B|i' p' c' P B|up i' p' c' U P B E]; subst.
    + inversion B as [|f c' F B']; subst. destruct F as [F|F]; cbn in F; subst p; cbn.
      * constructor. constructor; [right; reflexivity|assumption].
      * constructor; [left; reflexivity|assumption].
    + destruct P as [->| ->]; cbn.
      * constructor; [left; reflexivity|assumption].
      * constructor. assumption.
    + destruct P as [->| ->]; cbn.
      * apply (sh_held [] i AtBegin c); [constructor|left; reflexivity|assumption].
      * constructor; [right; reflexivity|assumption].
    + destruct up as [|f up]; cbn [app] in E; injection E as E1 E2.
      * subst i' p' c'. destruct P as [->|[->| ->]]; cbn.
        -- apply (sh_held [] i AtBody c); [constructor|right; left; reflexivity|assumption].
        -- destruct more; cbn.
           ++ apply (sh_held [] i AtBody c); [constructor|right; left; reflexivity|assumption].
           ++ apply (sh_held [] i AtDis2 c); [constructor|right; right; reflexivity|assumption].
        -- constructor; [right; reflexivity|assumption].
      * inversion U as [|f' up' F U']; subst. cbn in F. red in F. cbn in F. subst p. cbn.
        apply sh_held; assumption.
Qed.

Lemma shape_run : forall irq acts, shape (l_calls (lrun irq acts)) (l_lock (lrun irq acts)) (l_irq (lrun irq acts)).
Proof.
  intros irq acts. induction acts as [|a r IH] using rev_ind.
  - cbn. constructor. constructor.
  - unfold lrun. rewrite fold_left_app. cbn [fold_left]. apply shape_step. exact IH.
Qed.

(** ** beginnings and ends alternate *)
Inductive alt : list lev -> option nat -> Prop :=
| alt_nil : alt [] None
| alt_call : forall l o i, alt l o -> alt (l ++ [LCall i]) o
| alt_skip : forall l o i, alt l o -> alt (l ++ [LSkip i]) o
| alt_ret : forall l o i, alt l o -> alt (l ++ [LReturn i]) o
| alt_begin : forall l i, alt l None -> alt (l ++ [LBegin i]) (Some i)
| alt_end : forall l i, alt l (Some i) -> alt (l ++ [LEnd i]) None.

Lemma tail_in : forall A (a : list A) x b y l, a ++ x :: b = l ++ [y] ->
  (b = [] /\ a = l /\ x = y) \/ exists b', b = b' ++ [y] /\ l = a ++ x :: b'.
Proof.
  intros A a x b y l H. destruct b as [|z b] using rev_ind.
  - left. apply app_inj_tail in H. destruct H as [-> ->]. repeat split.
  - right. rewrite app_comm_cons, app_assoc in H. apply app_inj_tail in H. destruct H as [<- <-].
    exists b. split; reflexivity.
Qed.

Lemma alt_open : forall log o, alt log o -> forall a i b, log = a ++ LBegin i :: b -> In (LEnd i) b \/ o = Some i.
Proof.
  induction 1 as [|l o i A IH|l o i A IH|l o i A IH|l i A IH|l i A IH]; intros a i' b H.
  - destruct a; discriminate.
  - symmetry in H. apply tail_in in H. destruct H as [[_ [_ H]]|[b' [-> H]]]; [discriminate|].
    destruct (IH _ _ _ H) as [I|I]; [left; apply in_or_app; left; exact I|right; exact I].
  - symmetry in H. apply tail_in in H. destruct H as [[_ [_ H]]|[b' [-> H]]]; [discriminate|].
    destruct (IH _ _ _ H) as [I|I]; [left; apply in_or_app; left; exact I|right; exact I].
  - symmetry in H. apply tail_in in H. destruct H as [[_ [_ H]]|[b' [-> H]]]; [discriminate|].
    destruct (IH _ _ _ H) as [I|I]; [left; apply in_or_app; left; exact I|right; exact I].
  - symmetry in H. apply tail_in in H. destruct H as [[_ [_ H]]|[b' [-> H]]].
    + injection H as ->. right. reflexivity.
    + destruct (IH _ _ _ H) as [I|I]; [left; apply in_or_app; left; exact I|discriminate].
  - symmetry in H. apply tail_in in H. destruct H as [[_ [_ H]]|[b' [-> H]]]; [discriminate|].
    destruct (IH _ _ _ H) as [I|I]; left; apply in_or_app; [left; exact I|right].
    injection I as ->. left. reflexivity.
Qed.

Lemma alt_one : forall log o, alt log o -> one_at_a_time log.
Proof.
  induction 1 as [|l o i A IH|l o i A IH|l o i A IH|l i A IH|l i A IH]; intros a x b j c H;
  [destruct a; discriminate|..]; rewrite app_comm_cons, app_assoc in H; symmetry in H; apply tail_in in H.
  1,2,3,5: destruct H as [[_ [_ H]]|[c' [_ H]]]; [discriminate|]; rewrite <- app_assoc in H; exact (IH _ _ _ _ _ H).
  destruct H as [[_ [H E]]|[c' [_ H]]].
  - destruct (alt_open _ _ A a x b (eq_sym H)) as [I|I]; [exact I|discriminate].
  - rewrite <- app_assoc in H. exact (IH _ _ _ _ _ H).
Qed.

(** the call in its body, if any *)
Fixpoint in_body (c : list (nat * pc)) : option nat :=
  match c with [] => None | (i, AtBody) :: _ => Some i | _ :: r => in_body r end.
Lemma body_before : forall c, Forall before c -> in_body c = None.
Proof.
  induction 1 as [|[i p] c F B IH]; [reflexivity|]. destruct F as [F|F]; cbn in F; subst p; exact IH.
Qed.
Lemma alt_step : forall a s, shape (l_calls s) (l_lock s) (l_irq s) -> alt (l_log s) (in_body (l_calls s)) ->
  alt (l_log (lstep s a)) (in_body (l_calls (lstep s a))).
Proof.
  intros a [c lock irq n log] H A. cbn [l_calls l_lock l_irq l_log] in *. destruct a as [|more].
  - destruct c as [|f c]; cbn [lstep l_calls l_log l_irq l_next].
    + cbn. apply alt_call. exact A.
    + destruct irq; [|exact A]. cbn [l_log l_calls]. apply alt_call. exact A.
  - destruct c as [|[i p] c]; [exact A|]. cbn [lstep l_calls l_lock l_irq l_log].
    destruct p; cbn [lexec].
    + destruct lock; cbn; [apply alt_skip; exact A|rewrite app_nil_r; exact A].
    + cbn. rewrite app_nil_r. exact A.
    + cbn. rewrite app_nil_r. exact A.
    + cbn. rewrite app_nil_r. exact A.
    + cbn. cbn in A.
      inversion H as [c' irq' B|i' p' c' P B|i' p' c' P B|up i' p' c' U P B E]; subst.
      * inversion B as [|f c' F B']; subst. destruct F as [F|F]; discriminate.
      * destruct P; discriminate.
      * destruct P; discriminate.
      * destruct up as [|f up]; cbn [app] in E; injection E as E1 E2.
        -- subst. rewrite (body_before _ B) in A. apply alt_begin. exact A.
        -- subst f. inversion U as [|f' up' F U']; subst. discriminate.
    + cbn in A. destruct more; cbn; [rewrite app_nil_r; exact A|].
      inversion H as [c' irq' B|i' p' c' P B|i' p' c' P B|up i' p' c' U P B E]; subst.
      * inversion B as [|f c' F B']; subst. destruct F as [F|F]; discriminate.
      * destruct P; discriminate.
      * destruct P; discriminate.
      * destruct up as [|f up]; cbn [app] in E; injection E as E1 E2.
        -- subst. rewrite (body_before _ B). apply alt_end. exact A.
        -- subst f. inversion U as [|f' up' F U']; subst. discriminate.
    + cbn. rewrite app_nil_r. exact A.
    + cbn. rewrite app_nil_r. exact A.
    + cbn. apply alt_ret. exact A.
Qed.
Lemma alt_run : forall irq acts, alt (l_log (lrun irq acts)) (in_body (l_calls (lrun irq acts))).
Proof.
  intros irq acts. induction acts as [|a r IH] using rev_ind.
  - constructor.
  - unfold lrun. rewrite fold_left_app. cbn [fold_left]. apply alt_step; [apply shape_run|exact IH].
Qed.

(** ** which calls are under way *)
Definition under_way (s : lk) : Prop :=
  (forall i, In i (map fst (l_calls s)) <-> In (LCall i) (l_log s) /\ ~ In (LReturn i) (l_log s) /\ ~ In (LSkip i) (l_log s)) /\
  NoDup (map fst (l_calls s)) /\
  (forall i, In (LCall i) (l_log s) \/ In (LReturn i) (l_log s) \/ In (LSkip i) (l_log s) -> (i < l_next s)%nat).

Lemma in_snoc : forall A (x y : A) l, In x (l ++ [y]) <-> In x l \/ y = x.
Proof. intros A x y l. rewrite in_app_iff. cbn. tauto. Qed.

Lemma way_new : forall c lock irq n log, under_way (Lk c lock irq n log) ->
  under_way (Lk ((n, AtTest) :: c) lock irq (S n) (log ++ [LCall n])).
Proof.
  intros c lock irq n log [W [D B]]. cbn [l_calls l_log l_next] in *. split; [|split]; cbn [l_calls l_log l_next map fst].
  - intros i. cbn [In]. rewrite !in_snoc, W. split.
    + intros [<-|[C [R K]]].
      * split; [right; reflexivity|]. split; intros [I|I]; try discriminate;
        exfalso; apply (Nat.lt_irrefl n), B; tauto.
      * split; [left; exact C|]. split; intros [I|I]; try discriminate; tauto.
    + intros [[C|C] [R K]]; [right; tauto|left; injection C as ->; reflexivity].
  - constructor; [|exact D]. rewrite W. intros [C _]. apply (Nat.lt_irrefl n), B. tauto.
  - intros i. rewrite !in_snoc. intros [[I|I]|[[I|I]|[I|I]]]; try discriminate;
    try (apply Nat.lt_lt_succ_r, B; tauto). injection I as ->. apply Nat.lt_succ_diag_r.
Qed.
Lemma way_move : forall i p q c lock irq n log lock' irq' ev, under_way (Lk ((i, p) :: c) lock irq n log) ->
  (forall k, ~ In (LCall k) ev /\ ~ In (LReturn k) ev /\ ~ In (LSkip k) ev) ->
  under_way (Lk ((i, q) :: c) lock' irq' n (log ++ ev)).
Proof.
  intros i p q c lock irq n log lock' irq' ev [W [D B]] E. cbn [l_calls l_log l_next] in *.
  split; [|split]; cbn [l_calls l_log l_next map fst] in *.
  - intros k. rewrite W, !in_app_iff. specialize (E k). tauto.
  - exact D.
  - intros k. rewrite !in_app_iff. intros H. apply B. specialize (E k). tauto.
Qed.
Lemma way_leave : forall i p c lock irq n log lock' irq' e, under_way (Lk ((i, p) :: c) lock irq n log) ->
  e = LReturn i \/ e = LSkip i -> under_way (Lk c lock' irq' n (log ++ [e])).
Proof.
  intros i p c lock irq n log lock' irq' e [W [D B]] E. cbn [l_calls l_log l_next map fst] in *.
  assert (Wi : In (LCall i) log /\ ~ In (LReturn i) log /\ ~ In (LSkip i) log) by (apply W; left; reflexivity).
  inversion D as [|x l N D']; subst.
  split; [|split]; cbn [l_calls l_log l_next map fst].
  - intros k. rewrite !in_snoc. specialize (W k). cbn [In] in W. split.
    + intros I. assert (K : i <> k) by (intros ->; exact (N I)). destruct W as [W _]. specialize (W (or_intror I)).
      destruct W as [W1 [W2 W3]]. split; [left; exact W1|].
      split; intros [J|J]; try tauto; destruct E as [E|E]; subst e; try discriminate; injection J as J; exact (K J).
    + intros [[C|C] [R K]]; [|destruct E as [E|E]; subst e; discriminate].
      assert (Hk : i = k \/ In k (map fst c)) by (apply W; tauto).
      destruct Hk as [->|Hk]; [|exact Hk]. exfalso. destruct E as [E|E]; subst e; tauto.
  - exact D'.
  - intros k. rewrite !in_snoc. intros H. apply B.
    assert (Q : e = LCall k \/ e = LReturn k \/ e = LSkip k -> k = i).
    { intros [Q|[Q|Q]]; destruct E as [E|E]; subst e; try discriminate; injection Q as ->; reflexivity. }
    assert (Z : e = LCall k \/ e = LReturn k \/ e = LSkip k -> In (LCall k) log) by (intros Z; rewrite (Q Z); tauto).
    tauto.
Qed.
Lemma way_step : forall a s, under_way s -> under_way (lstep s a).
Proof.
  intros a [c lock irq n log] W. destruct a as [|more].
  - destruct c as [|f c]; cbn [lstep l_calls l_lock l_irq l_next l_log].
    + apply way_new. exact W.
    + destruct irq; [|exact W]. apply way_new. exact W.
  - destruct c as [|[i p] c]; [exact W|]. cbn [lstep l_calls l_lock l_irq l_next l_log].
    destruct p; cbn [lexec].
    + destruct lock; [apply (way_leave i AtTest c true irq n log); [exact W|right; reflexivity]|].
      eapply way_move; [exact W|]. intros k. cbn. tauto.
    + eapply way_move; [exact W|]. intros k. cbn. tauto.
    + eapply way_move; [exact W|]. intros k. cbn. tauto.
    + eapply way_move; [exact W|]. intros k. cbn. tauto.
    + eapply way_move; [exact W|]. intros k. cbn. repeat split; intros [H|[]]; discriminate.
    + destruct more.
      * eapply way_move; [exact W|]. intros k. cbn. tauto.
      * eapply way_move; [exact W|]. intros k. cbn. repeat split; intros [H|[]]; discriminate.
    + eapply way_move; [exact W|]. intros k. cbn. tauto.
    + eapply way_move; [exact W|]. intros k. cbn. tauto.
    + apply (way_leave i AtEn2 c lock irq n log); [exact W|left; reflexivity].
Qed.
Lemma way_run : forall irq acts, under_way (lrun irq acts).
Proof.
  intros irq acts. induction acts as [|a r IH] using rev_ind.
  - split; [|split]; cbn.
    + intros i. tauto.
    + constructor.
    + tauto.
  - unfold lrun. rewrite fold_left_app. cbn [fold_left]. apply way_step. exact IH.
Qed.

(** ** a skipped call *)
Lemma skips_snoc : forall l e, skips_justified l -> (forall j, e <> LSkip j) -> skips_justified (l ++ [e]).
Proof.
  intros l e H N a j c E. symmetry in E. apply tail_in in E. destruct E as [[_ [_ E]]|[b [_ E]]].
  - exfalso. exact (N j (eq_sym E)).
  - exact (H a j b E).
Qed.
Lemma skips_step : forall a s, shape (l_calls s) (l_lock s) (l_irq s) -> under_way s ->
  skips_justified (l_log s) -> skips_justified (l_log (lstep s a)).
Proof.
  intros a [c lock irq n log] H W J. cbn [l_calls l_lock l_irq l_log] in *. destruct a as [|more].
  - destruct c as [|f c]; cbn [lstep l_calls l_lock l_irq l_next l_log].
    + apply skips_snoc; [exact J|discriminate].
    + destruct irq; [|exact J]. apply skips_snoc; [exact J|discriminate].
  - destruct c as [|[i p] c]; [exact J|]. cbn [lstep l_calls l_lock l_irq l_next l_log].
    destruct p; cbn [lexec l_log];
    try (rewrite app_nil_r; exact J); try (apply skips_snoc; [exact J|discriminate]).
    2: { destruct more; cbn [l_log]; [rewrite app_nil_r; exact J|apply skips_snoc; [exact J|discriminate]]. }
    destruct lock; cbn [l_log]; [|rewrite app_nil_r; exact J].
    intros a j b E. symmetry in E. apply tail_in in E. destruct E as [[_ [-> E]]|[b' [_ E]]]; [|exact (J a j b' E)].
    injection E as ->.
    inversion H as [c' irq' B|i' p' c' P B|i' p' c' P B|up i' p' c' U P B E]; subst.
    + destruct P; discriminate.
    + destruct up as [|f up]; cbn [app] in E; injection E as E1 E2.
      * subst. destruct P as [P|[P|P]]; discriminate.
      * subst f c. destruct W as [W [D _]]. cbn [l_calls l_log map fst] in W, D.
        assert (I : In i' (map fst (up ++ (i', p') :: c'))).
        { rewrite map_app. apply in_or_app. right. left. reflexivity. }
        exists i'. split.
        -- intros ->. inversion D as [|x l N _]; subst. exact (N I).
        -- apply W. right. exact I.
Qed.
Lemma skips_run : forall irq acts, skips_justified (l_log (lrun irq acts)).
Proof.
  intros irq acts. induction acts as [|a r IH] using rev_ind.
  - intros a j c E. destruct a; discriminate.
  - unfold lrun. rewrite fold_left_app. cbn [fold_left].
    apply skips_step; [apply shape_run|apply way_run|exact IH].
Qed.
