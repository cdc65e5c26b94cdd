(** Proofs about a download behind the control receive queue. *)
From Verif Require Import Words WordsFacts Bits Ring ErrModel ErrSpec ErrProofs NodeModel LookModel LookSpec LookProofs XBufModel XBufSpec XBufProofs AsyncModel AsyncSpec AsyncProofs XloadModel XloadSpec XloadProofs XloadRun DlQueueModel DlQueueSpec.

(** the messages with result success *)
Fixpoint kept {A} (l : list A) (r : list N) : list A :=
  match l, r with a :: l', e :: r' => if e =? ERR_OK then a :: kept l' r' else kept l' r' | _, _ => [] end.
Lemma kept_app {A} : forall (l1 l2 : list A) r1 r2, length l1 = length r1 -> kept (l1 ++ l2) (r1 ++ r2) = kept l1 r1 ++ kept l2 r2.
Proof. induction l1 as [|a l IH]; intros l2 [|e r1] r2 H; cbn [length] in H; try lia; cbn [kept app]; auto. destruct (e =? ERR_OK); cbn [app]; rewrite IH by lia; reflexivity. Qed.
Lemma kept_map {A B} (f : A -> B) : forall l r, kept (map f l) r = map f (kept l r).
Proof. induction l as [|a l IH]; intros [|e r]; cbn [kept map]; auto. destruct (e =? ERR_OK); cbn [map]; rewrite IH; reflexivity. Qed.
Lemma kept_all {A} : forall (l : list A) r, length l = length r -> Forall (eq ERR_OK) r -> kept l r = l.
Proof. induction l as [|a l IH]; intros [|e r] H F; cbn [length] in H; try lia; cbn [kept]; auto. inversion F; subst. rewrite N.eqb_refl, IH; auto. Qed.
Lemma kept_le {A} : forall (l : list A) r, (length (kept l r) <= length l)%nat.
Proof. induction l as [|a l IH]; intros [|e r]; cbn [kept length]; try lia. specialize (IH r). destruct (e =? ERR_OK); cbn [length]; lia. Qed.
Lemma kept_less {A} : forall (l : list A) r, length l = length r -> ~ Forall (eq ERR_OK) r -> (length (kept l r) < length l)%nat.
Proof.
  induction l as [|a l IH]; intros [|e r] H F; cbn [length] in H; try lia; [exfalso; apply F; constructor|]. cbn [kept length].
  destruct (e =? ERR_OK) eqn:E; [apply N.eqb_eq in E|pose proof (kept_le l r); lia]. subst e. cbn [length].
  assert (length (kept l r) < length l)%nat; [|lia]. apply IH; [lia|]. intro K. apply F. constructor; auto.
Qed.
Lemma kept_Forall {A} (P : A -> Prop) : forall l r, Forall P l -> Forall P (kept l r).
Proof. induction l as [|a l IH]; intros [|e r] F; cbn [kept]; auto; try constructor. inversion F; subst. destruct (e =? ERR_OK); auto. Qed.

Lemma results_app a b : results (a ++ b) = results a ++ results b.
Proof. induction a as [|[e|o] a IH]; cbn [app results]; [reflexivity|rewrite IH; reflexivity|exact IH]. Qed.
Lemma effects_app a b : effects (a ++ b) = effects a ++ effects b.
Proof. induction a as [|[e|o] a IH]; cbn [app effects]; [reflexivity|exact IH|rewrite IH; reflexivity]. Qed.
Lemma results_obs l : results (map QObs l) = []. Proof. induction l; cbn; auto. Qed.
Lemma effects_obs l : effects (map QObs l) = l. Proof. induction l; cbn; congruence. Qed.
Lemma arrivals_app a b : arrivals (a ++ b) = arrivals a ++ arrivals b.
Proof. induction a as [|[t z n d|t z p] a IH]; cbn [app arrivals]; [reflexivity|rewrite IH; reflexivity|exact IH]. Qed.
Lemma dq_run_app L size : forall a b s, dq_run L size (a ++ b) s =
  match dq_run L size a s with Some (s1, o1) => match dq_run L size b s1 with Some (s2, o2) => Some (s2, o1 ++ o2) | None => None end | None => None end.
Proof.
  induction a as [|e a IH]; intros b s; cbn [dq_run app].
  - destruct (dq_run L size b s) as [[s2 o2]|]; reflexivity.
  - destruct (dq_step L size s e) as [[s1 o1]|]; [|reflexivity]. rewrite IH. destruct (dq_run L size a s1) as [[s2 o2]|]; [|reflexivity].
    destruct (dq_run L size b s2) as [[s3 o3]|]; [|reflexivity]. rewrite app_assoc. reflexivity.
Qed.

Section Sim.
Variables (L size : nat) (nr : N) (p : hprog).
Hypothesis HL : (0 < L)%nat.
Definition proc (o : xlop) (m : N * list byte) : Prop := exists tab sil, o = LRx tab sil nr (snd m) p /\ listening tab sil nr.
Definition frame_ok (m : N * list byte) : Prop := fst m = nr /\ length (snd m) = 8%nat.
(** the composition does what the sequence of messages taken out does *)
Lemma sim : forall evs q w x, crel L q w -> Forall frame_ok w -> Forall (ev_ok nr p) evs -> Forall frame_ok (arrivals evs) ->
  exists q' w' r ps ms, crel L q' w' /\ Forall frame_ok w' /\ w ++ kept (arrivals evs) r = ms ++ w' /\ Forall2 proc ps ms /\
    length r = length (arrivals evs) /\ Forall (fun e => e = ERR_OK \/ e = E_RX_QUEUE_OVERFLOW) r /\
    ((length w + length (arrivals evs) <= L)%nat -> Forall (eq ERR_OK) r) /\
    (Forall (poll_ok nr p) evs -> length w' = (length w - length evs)%nat) /\
    forall es x' o, xl_run size ps x = Some (es, x', o) ->
      exists obs, dq_run L size evs (DQS q x) = Some (DQS q' x', obs) /\ results obs = r /\ effects obs = o.
Proof.
  induction evs as [|e evs IH]; intros q w x R FW FE FA.
  - exists q, w, [], [], []. cbn [arrivals kept]. rewrite app_nil_r. cbn [app length]. split; [exact R|]. split; [exact FW|]. split; [reflexivity|]. split; [constructor|]. split; [reflexivity|]. split; [constructor|].
    split; [constructor|]. split; [lia|]. intros es x' o E. injection E as <- <- <-. exists []. repeat split.
  - inversion FE as [|? ? E1 E2]; subst. destruct e as [tab sil n d|tab sil p']; cbn [arrivals] in *.
    + inversion FA as [|? ? A1 A2]; subst. destruct A1 as [A0 A1]. cbn [fst snd] in A0, A1. subst n. cbn [ev_ok] in E1.
      destruct (csim L HL q w (CPut tab sil nr d) R) as (q1 & r1 & w1 & S1 & S2 & R1); [cbn; lia|].
      cbn [crq_step] in S1. destruct (crq_put L tab sil q nr d) as [[q1' e1]|] eqn:EP; [|discriminate]. injection S1 as -> <-.
      assert (K : (e1 = ERR_OK /\ w1 = w ++ [(nr, d)]) \/ (e1 = E_RX_QUEUE_OVERFLOW /\ w1 = w /\ length w = L)).
      { inversion S2; subst; [left|right|contradiction]; repeat split; auto. rewrite firstn_all2 by lia. reflexivity. }
      assert (FW1 : Forall frame_ok w1).
      { destruct K as [[_ ->]|[_ [-> _]]]; [|exact FW]. apply Forall_app. split; [exact FW|]. constructor; [split; [reflexivity|exact A1]|constructor]. }
      destruct (IH q1 _ x R1 FW1 E2 A2) as (q' & w' & r & ps & ms & R' & F' & EQ & PR & LR & FR & BIG & _ & RUN).
      exists q', w', (e1 :: r), ps, ms. split; [exact R'|]. split; [exact F'|]. split.
      { cbn [kept]. destruct K as [[-> ->]|[-> [-> _]]].
        - change (ERR_OK =? ERR_OK) with true. cbv iota. rewrite <- app_assoc in EQ. exact EQ.
        - change (E_RX_QUEUE_OVERFLOW =? ERR_OK) with false. cbv iota. exact EQ. }
      split; [exact PR|]. split; [cbn [length]; lia|]. split; [constructor; [destruct K as [[-> _]|[-> _]]; auto|exact FR]|]. split.
      { cbn [length]. intro B. destruct K as [[-> ->]|[_ [_ K]]]; [|lia]. constructor; [reflexivity|]. apply BIG. rewrite app_length. cbn [length]. lia. }
      split; [intro F; inversion F as [|? ? X _]; destruct X|].
      intros es x' o E. destruct (RUN es x' o E) as (obs & D & RE & EF). exists (QRes e1 :: obs). cbn [dq_run dq_step qs_q qs_x]. rewrite EP, D.
      cbn [results effects app]. split; [reflexivity|]. split; [congruence|exact EF].
    + destruct E1 as [LI ->]. destruct (csim L HL q w CTake R I) as (q1 & r1 & w1 & S1 & S2 & R1).
      cbn [crq_step] in S1. destruct (crq_take L q) as [[q1' m1]|] eqn:EP; [|discriminate]. injection S1 as -> <-.
      inversion S2; subst.
      * inversion FW as [|? ? FM FW']; subst. destruct m as [n d]. destruct FM as [FM0 FM]. cbn [fst snd] in FM0, FM. subst n.
        destruct (xl_step size (LRx tab sil nr d p) x) as [[[e1 x1] o1]|] eqn:EX.
        -- destruct (IH q1 _ x1 R1 FW' E2 FA) as (q' & w' & r & ps & ms & R' & F' & EQ & PR & LR & FR & BIG & DR & RUN).
           exists q', w', r, (LRx tab sil nr d p :: ps), ((nr, d) :: ms). split; [exact R'|]. split; [exact F'|]. split; [cbn [app]; f_equal; exact EQ|].
           split; [constructor; [exists tab, sil; auto|exact PR]|]. split; [exact LR|]. split; [exact FR|]. split; [intro B; apply BIG; cbn [length] in B; lia|].
           split; [intro F; inversion F; subst; cbn [length]; rewrite DR by assumption; lia|].
           intros es x' o E. cbn [xl_run] in E. rewrite (xbind_some _ _ _ _ _ _ EX) in E.
           destruct (xl_run size ps x1) as [[[es2 x2] o2]|] eqn:EY; unfold xbind in E; rewrite EY in E; [|discriminate]. unfold xret in E. injection E as <- <- <-.
           destruct (RUN _ _ _ eq_refl) as (obs & D & RE & EF). exists (map QObs o1 ++ obs). cbn [dq_run dq_step qs_q qs_x]. rewrite EP. cbn [xl_step] in EX. rewrite EX, D.
           split; [reflexivity|]. rewrite results_app, effects_app, results_obs, effects_obs, RE, EF. rewrite ?app_nil_r. split; reflexivity.
        -- destruct (IH q1 _ x R1 FW' E2 FA) as (q' & w' & r & ps & ms & R' & F' & EQ & PR & LR & FR & BIG & DR & RUN).
           exists q', w', r, (LRx tab sil nr d p :: ps), ((nr, d) :: ms). split; [exact R'|]. split; [exact F'|]. split; [cbn [app]; f_equal; exact EQ|].
           split; [constructor; [exists tab, sil; auto|exact PR]|]. split; [exact LR|]. split; [exact FR|]. split; [intro B; apply BIG; cbn [length] in B; lia|].
           split; [intro F; inversion F; subst; cbn [length]; rewrite DR by assumption; lia|].
           intros es x' o E. cbn [xl_run] in E. unfold xbind in E. rewrite EX in E. discriminate.
      * destruct (IH q1 [] x R1 FW E2 FA) as (q' & w' & r & ps & ms & R' & F' & EQ & PR & LR & FR & BIG & DR & RUN).
        exists q', w', r, ps, ms. split; [exact R'|]. split; [exact F'|]. split; [exact EQ|]. split; [exact PR|]. split; [exact LR|]. split; [exact FR|].
        split; [exact BIG|]. split; [intro F; inversion F; subst; rewrite DR by assumption; cbn [length]; lia|].
        intros es x' o E. destruct (RUN _ _ _ E) as (obs & D & RE & EF). exists obs. cbn [dq_run dq_step qs_q qs_x]. rewrite EP, D. cbn [app]. auto.
Qed.

(** the messages that were accepted, as the stack processes them *)
Lemma data_proc : forall ps (ms : list (list byte)) s l, Forall2 proc ps (map (fun m => (nr, 0x15 :: m)) ms) -> Forall (fun m => length m = 7%nat) ms -> xrel size l (x_buf s) ->
  (length l + length (concat ms) <= size)%nat -> N.of_nat size < 65536 -> x_objs s + N.of_nat (length ms) < 65536 -> x_bytes s + N.of_nat (length (concat ms)) < 65536 ->
  exists es s', xl_run size ps s = Some (es, s', []) /\ xrel size (l ++ concat ms) (x_buf s') /\
    x_objs s' = x_objs s + N.of_nat (length ms) /\ x_bytes s' = x_bytes s + N.of_nat (length (concat ms)) /\ same_rest s s'.
Proof.
  clear HL L. intros ps ms. revert ps. induction ms as [|m r IH]; intros ps s l P F R Z SZ CO CB; cbn [map concat] in *; inversion P; subst.
  - exists [], s. rewrite app_nil_r. cbn [length]. split; [reflexivity|]. split; [exact R|]. split; [lia|]. split; [lia|repeat split].
  - match goal with H : proc _ _ |- _ => destruct H as (tab & sil & -> & LI) end. cbn [snd]. inversion F as [|? ? L7 F']; subst. rewrite app_length in Z, CB. rewrite app_length. cbn [length] in CO.
    destruct (rx_data size tab sil nr m p s l LI L7 R) as (b1 & R1 & E1); [lia|].
    destruct (IH l0 (set_cnts (set_xbuf s b1) (u16 (x_objs s + 1)) (u16 (x_bytes s + 7))) (l ++ m)) as (es & s' & E & RB & O & B & S); auto.
    { rewrite app_length. change byte with N in *. lia. }
    { cbn [x_objs set_cnts set_xbuf]. unfold u16. lia. }
    { cbn [x_bytes set_cnts set_xbuf]. unfold u16. lia. }
    cbn [x_objs x_bytes set_cnts set_xbuf] in O, B. unfold u16 in O, B.
    exists (ERR_OK :: es), s'. split; [|split; [rewrite <- app_assoc in RB; exact RB|split; [cbn [length]; lia|split; [lia|]]]].
    + cbn [xl_run xl_step]. rewrite (xbind_some _ _ _ _ _ _ E1), (xbind_some _ _ _ _ _ _ E). reflexivity.
    + destruct S as (S1 & S2 & S3 & S4 & S5 & S6 & S7). repeat split; [exact S1|exact S2|exact S3|exact S4|exact S5|exact S6|exact S7].
Qed.
Lemma wrong_end tab sil d n k rest s : 1 <= nr -> nr < 256 -> listening tab sil nr -> d = 0x16 :: two n ++ two k ++ rest -> k < 65536 -> k <> x_objs s ->
  exists s', async_rx size tab sil nr d p s = Some (E_COUNT_NOT_MATCH, s', [term_msg nr E_COUNT_NOT_MATCH]) /\ x_prog s' = Idle.
Proof.
  intros N1 N2 LI -> K KN.
  match goal with |- context [async_rx _ _ _ _ ?d ?p0] => destruct (rx_listening size tab sil nr d p0 s LI) as (q & _ & E) end. cbn [nth] in E. code E 22.
  unfold block_end, two in E. cbn [app nth] in E. rewrite (two_back k) in E by exact K. rewrite xbind_get in E. destruct (k =? x_objs s) eqn:EK; [apply N.eqb_eq in EK; congruence|].
  rewrite (xbind_some _ _ _ _ _ _ (term_eq nr E_COUNT_NOT_MATCH s N1 N2 ltac:(reflexivity))) in E. unfold xret in E. cbn [app] in E. unfold two. cbn [app]. rewrite E.
  eexists. split; reflexivity.
Qed.

Lemma core evs tl q x (ms : list (list byte)) d : crel L q [] -> Forall (ev_ok nr p) evs -> arrivals evs = map (fun m => (nr, 0x15 :: m)) ms ++ [(nr, d)] ->
  Forall (fun m => length m = 7%nat) ms -> length d = 8%nat -> Forall (poll_ok nr p) tl -> (length (arrivals evs) <= length tl)%nat ->
  exists q' rd re pd, crel L q' [] /\ Forall2 proc pd (map (fun m => (nr, 0x15 :: m)) (kept ms rd)) /\ length rd = length ms /\
    Forall (fun e => e = ERR_OK \/ e = E_RX_QUEUE_OVERFLOW) (rd ++ [re]) /\ ((length (arrivals evs) <= L)%nat -> Forall (eq ERR_OK) (rd ++ [re])) /\
    forall es x1, xl_run size pd x = Some (es, x1, []) ->
      (re <> ERR_OK -> exists obs, dq_run L size (evs ++ tl) (DQS q x) = Some (DQS q' x1, obs) /\ results obs = rd ++ [re] /\ effects obs = []) /\
      (re = ERR_OK -> exists tab sil, listening tab sil nr /\ forall e x2 o2, async_rx size tab sil nr d p x1 = Some (e, x2, o2) ->
         exists obs, dq_run L size (evs ++ tl) (DQS q x) = Some (DQS q' x2, obs) /\ results obs = rd ++ [re] /\ effects obs = o2).
Proof.
  intros R FE AR F7 D8 FT LT.
  assert (AT : arrivals tl = []) by (clear -FT; induction FT as [|e l P F IH]; [reflexivity|destruct e; [destruct P|exact IH]]).
  assert (FT' : Forall (ev_ok nr p) tl) by (clear -FT; induction FT as [|e l P F IH]; constructor; auto; destruct e; [destruct P|exact P]).
  assert (FA : Forall frame_ok (arrivals evs)).
  { rewrite AR. apply Forall_app. split; [|constructor; [split; [reflexivity|exact D8]|constructor]].
    clear -F7. induction F7; cbn [map]; constructor; auto. split; [reflexivity|]. cbn [snd length]. f_equal. assumption. }
  destruct (sim evs q [] x R (Forall_nil _) FE FA) as (q1 & w1 & r & ps & m1 & R1 & F1 & EQ & PR & LR & FR & BIG & _ & RUN). cbn [app length] in EQ, BIG.
  assert (EW : (length w1 <= length tl)%nat).
  { assert (K : (length w1 <= length (kept (arrivals evs) r))%nat) by (rewrite EQ, app_length; change cmsg with (N * list byte)%type in *; lia). pose proof (kept_le (arrivals evs) r). change cmsg with (N * list byte)%type in *. lia. }
  assert (exists rd re, r = rd ++ [re] /\ length rd = length ms) as (rd & re & -> & LD).
  { rewrite AR, app_length, map_length in LR. cbn [length] in LR. destruct (exists_last (l := r)) as (rd & re & ->); [destruct r; cbn in LR; [lia|discriminate]|].
    exists rd, re. split; [reflexivity|]. rewrite app_length in LR. cbn [length] in LR. change byte with N in *. lia. }
  assert (EK : kept (arrivals evs) (rd ++ [re]) = map (fun m => (nr, 0x15 :: m)) (kept ms rd) ++ (if re =? ERR_OK then [(nr, d)] else [])).
  { rewrite AR, kept_app by (rewrite map_length; change byte with N in *; lia). rewrite kept_map. cbn [kept]. destruct (re =? ERR_OK); reflexivity. }
  rewrite EK in EQ.
  (* the state after the first part is needed to start the second one only through the sequence of messages *)
  assert (HD : exists q' ps2, crel L q' [] /\ Forall2 proc ps2 w1 /\ forall x0 es x' o, xl_run size ps2 x0 = Some (es, x', o) ->
     exists obs, dq_run L size tl (DQS q1 x0) = Some (DQS q' x', obs) /\ results obs = [] /\ effects obs = o).
  { clear -R1 F1 FT EW HL. revert q1 w1 R1 F1 EW. induction FT as [|e l P F IH]; intros q1 w1 R1 F1 EW.
    - destruct w1; [|cbn [length] in EW; lia]. exists q1, []. split; [exact R1|]. split; [constructor|]. intros x0 es x' o E. injection E as <- <- <-. exists []. repeat split.
    - destruct e as [|tab sil p']; [destruct P|]. destruct P as [LI ->].
      destruct (csim L HL q1 w1 CTake R1 I) as (q2 & r1 & w2 & S1 & S2 & R2).
      cbn [crq_step] in S1. destruct (crq_take L q1) as [[q2' m1]|] eqn:EP; [|discriminate]. injection S1 as -> <-. inversion S2; subst.
      + inversion F1 as [|? ? FM F2]; subst. destruct m as [n d]. destruct FM as [FM0 FM]. cbn [fst snd] in FM0, FM. subst n.
        destruct (IH q2 _ R2 F2) as (q' & ps2 & R' & PR & RUN); [cbn [length] in EW; lia|]. exists q', (LRx tab sil nr d p :: ps2). split; [exact R'|].
        split; [constructor; [exists tab, sil; auto|exact PR]|]. intros x0 es x' o E. cbn [xl_run xl_step] in E. unfold xbind at 1 in E.
        destruct (async_rx size tab sil nr d p x0) as [[[e1 x1] o1]|] eqn:EX; [|discriminate]. unfold xbind in E.
        destruct (xl_run size ps2 x1) as [[[es2 x2] o2]|] eqn:EY; [|discriminate]. unfold xret in E. injection E as <- <- <-.
        destruct (RUN _ _ _ _ EY) as (obs & D & RE & EF). exists (map QObs o1 ++ obs). cbn [dq_run dq_step qs_q qs_x]. rewrite EP, EX, D.
        split; [reflexivity|]. rewrite results_app, effects_app, results_obs, effects_obs, RE, EF. rewrite ?app_nil_r. split; reflexivity.
      + destruct (IH q2 [] R2 (Forall_nil _)) as (q' & ps2 & R' & PR & RUN); [cbn; lia|]. exists q', ps2. split; [exact R'|]. split; [exact PR|].
        intros x0 es x' o E. destruct (RUN _ _ _ _ E) as (obs & D & RE & EF). exists obs. cbn [dq_run dq_step qs_q qs_x]. rewrite EP, D. cbn [app]. auto. }
  destruct HD as (q' & ps2 & R' & PR2 & RUN2).
  assert (PA : Forall2 proc (ps ++ ps2) (map (fun m => (nr, 0x15 :: m)) (kept ms rd) ++ (if re =? ERR_OK then [(nr, d)] else []))) by (rewrite EQ; apply Forall2_app; assumption).
  apply Forall2_app_inv_r in PA. destruct PA as (pd & pe & PD & PE & EP).
  assert (ALL : forall es x' o, xl_run size (ps ++ ps2) x = Some (es, x', o) ->
     exists obs, dq_run L size (evs ++ tl) (DQS q x) = Some (DQS q' x', obs) /\ results obs = rd ++ [re] /\ effects obs = o).
  { intros es x' o E. rewrite xl_run_app in E. destruct (xl_run size ps x) as [[[e1 x1] o1]|] eqn:E1; [|discriminate].
    destruct (xl_run size ps2 x1) as [[[e2 x2] o2]|] eqn:E2; [|discriminate]. injection E as <- <- <-.
    destruct (RUN _ _ _ eq_refl) as (ob1 & D1 & RE1 & EF1). destruct (RUN2 _ _ _ _ E2) as (ob2 & D2 & RE2 & EF2).
    exists (ob1 ++ ob2). rewrite dq_run_app, D1, D2. split; [reflexivity|]. rewrite results_app, effects_app, RE1, RE2, EF1, EF2, app_nil_r. split; reflexivity. }
  exists q', rd, re, pd. split; [exact R'|]. split; [exact PD|]. split; [exact LD|]. split; [exact FR|]. split; [exact BIG|].
  intros es x1 EX. rewrite EP in ALL. split; intro RE.
  - destruct (re =? ERR_OK) eqn:E0; [apply N.eqb_eq in E0; congruence|]. inversion PE; subst pe. rewrite app_nil_r in ALL. apply (ALL _ _ _ EX).
  - subst re. rewrite N.eqb_refl in PE. inversion PE as [|o0 ? l0 ? (tab & sil & -> & LI) P0]; subst. inversion P0; subst. exists tab, sil. split; [exact LI|].
    intros e x2 o2 E. cbn [snd] in ALL. apply (ALL (es ++ [e])). rewrite xl_run_app, EX. cbn [xl_run xl_step]. rewrite (xbind_some _ _ _ _ _ _ E). unfold xbind, xret. cbn [app]. rewrite ?app_nil_r. reflexivity.
Qed.
End Sim.

(** ** histories of the queue *)
Lemma accepted_det ops : forall outs a b, accepted_msgs ops outs a -> accepted_msgs ops outs b -> a = b.
Proof. induction ops as [|o ops IH]; intros outs a b A B; inversion A; subst; inversion B; subst; try contradiction; try discriminate; auto; try (f_equal; eapply IH; eassumption); eapply IH; eassumption. Qed.
Lemma runs_app {S O R} (step : S -> O -> option (S * R)) : forall a b s, runs step s (a ++ b) =
  match runs step s a with Some (s1, r1) => match runs step s1 b with Some (s2, r2) => Some (s2, r1 ++ r2) | None => None end | None => None end.
Proof.
  induction a as [|o a IH]; intros b s; cbn [runs app]; [destruct (runs step s b) as [[]|]; reflexivity|].
  destruct (step s o) as [[s1 r1]|]; [|reflexivity]. rewrite IH. destruct (runs step s1 a) as [[s2 r2]|]; [|reflexivity]. destruct (runs step s2 b) as [[s3 r3]|]; reflexivity.
Qed.
Lemma emptied_rel L q : emptied L q -> crel L q [].
Proof.
  intros (HL & ops & outs & acc & K & RU & A & E).
  destruct (runs_steps (crq_step L) (cstep L) (crel L) cop_ok (csim L HL) ops (crq_zero L) []) as (q' & rs & l & B & C & D); auto; [apply ring_zero; exact HL|].
  rewrite RU in B. injection B as <- <-. destruct (csteps_fifo _ _ _ _ _ C) as (acc' & A' & E'). rewrite (accepted_det _ _ _ _ A' A) in E'. cbn [app] in E'. rewrite E in E'.
  destruct l as [|m l]; [exact D|]. apply (f_equal (@length _)) in E'. rewrite app_length in E'. cbn [length] in E'. lia.
Qed.
Lemma rel_emptied L ops outs q : (0 < L)%nat -> Forall cop_ok ops -> runs (crq_step L) (crq_zero L) ops = Some (q, outs) -> crel L q [] -> emptied L q.
Proof.
  intros HL K RU R. destruct (runs_steps (crq_step L) (cstep L) (crel L) cop_ok (csim L HL) ops (crq_zero L) []) as (q' & rs & l & B & C & D); auto; [apply ring_zero; exact HL|].
  rewrite RU in B. injection B as <- <-. destruct D as [_ _ _ D4 _ _]. destruct R as [_ _ _ R4 _ _]. rewrite R4 in D4. destruct l; [|discriminate].
  destruct (csteps_fifo _ _ _ _ _ C) as (acc & A & E). rewrite app_nil_r in E. split; [exact HL|]. exists ops, outs, acc. cbn [app] in E. repeat split; assumption.
Qed.
Lemma simq L size : forall evs q x q' x' obs, Forall (fun m => length (snd m) = 8%nat) (arrivals evs) -> dq_run L size evs (DQS q x) = Some (DQS q' x', obs) ->
  exists cops outs, Forall cop_ok cops /\ runs (crq_step L) q cops = Some (q', outs).
Proof.
  induction evs as [|e evs IH]; intros q x q' x' obs FA H; cbn [dq_run] in H.
  - injection H as <- _ _. exists [], []. split; [constructor|reflexivity].
  - destruct (dq_step L size (DQS q x) e) as [[[q1 x1] o1]|] eqn:E1; [|discriminate]. destruct (dq_run L size evs (DQS q1 x1)) as [[[q2 x2] o2]|] eqn:E2; [|discriminate]. injection H as <- <- <-.
    destruct e as [tab sil n d|tab sil p]; cbn [dq_step qs_q qs_x arrivals] in *.
    + inversion FA as [|? ? A1 A2]; subst. destruct (IH _ _ _ _ _ A2 E2) as (cops & outs & K & RU).
      destruct (crq_put L tab sil q n d) as [[q0 r]|] eqn:EP; [|discriminate]. injection E1 as <- <- <-.
      exists (CPut tab sil n d :: cops). eexists. split; [constructor; [cbn in *; lia|exact K]|]. cbn [runs crq_step]. rewrite EP, RU. reflexivity.
    + destruct (IH _ _ _ _ _ FA E2) as (cops & outs & K & RU). destruct (crq_take L q) as [[q0 m]|] eqn:EP; [|discriminate].
      assert (q0 = q1). { destruct m as [[n d]|]; [destruct (async_rx _ _ _ _ _ _ _) as [[[]]|]; [|discriminate]|]; injection E1; auto. } subst q0.
      exists (CTake :: cops). eexists. split; [constructor; [exact I|exact K]|]. cbn [runs crq_step]. rewrite EP, RU. reflexivity.
Qed.
Lemma emptied_next L size evs q x q' x' obs : emptied L q -> Forall (fun m => length (snd m) = 8%nat) (arrivals evs) ->
  dq_run L size evs (DQS q x) = Some (DQS q' x', obs) -> crel L q' [] -> emptied L q'.
Proof.
  intros (HL & ops & outs & acc & K & RU & _) FA D R. destruct (simq _ _ _ _ _ _ _ _ FA D) as (cops & o2 & K2 & RU2).
  apply (rel_emptied L (ops ++ cops) (outs ++ o2)); auto; [apply Forall_app; auto|]. rewrite runs_app, RU, RU2. reflexivity.
Qed.

(** ** the state of the download *)
Lemma dl_state size nr h c l x : downloading size nr h c l x ->
  N.of_nat size < 65536 /\ 1 <= nr /\ nr < 256 /\ between size l x /\ x_comp x = c /\ x_prog x = InProgress /\ nth (hidx HBlockEnd) (x_hand x) None = Some h.
Proof.
  intros (pre & s & tab & silent & hs & he & name & crc & id & maxb & delay & blks & os & es & obs & RD & RQ & RC & M & D & DE & RUN).
  destruct (dl_run _ _ _ _ _ _ _ _ _ _ _ _ _ _ _ _ _ _ RD RQ RC M D DE) as (es' & s1 & E1 & FE & BT & C1 & P1 & H1). rewrite RUN in E1. injection E1 as <- <- _.
  destruct RD as [[Z0 Z1] [N1 N2] LI (es0 & ob0 & RUN0) HP HH1 HH2 HH3]. destruct (regs_run _ _ _ _ _ RUN0) as ((_ & RG & _) & _).
  rewrite H1, RG. auto 10.
Qed.
Lemma delivered_app size nr h c l blks l1 os : delivered size nr h c l blks l1 os -> forall b l2 o, good_blk size l1 b l2 o ->
  delivered size nr h c l (blks ++ [b]) l2 (os ++ XCalled HBlockEnd h c :: o ++ [ack_msg nr]).
Proof.
  induction 1 as [l|l b l1 o r l2 os B1 B2 B3 B4 D IH]; intros b' l3 o' G; cbn [app].
  - destruct G as [G1 G2 G3 G4]. apply (DeCons _ _ _ _ l b' l3 o' [] l3 []); auto. constructor.
  - rewrite <- app_assoc. cbn [app]. eapply DeCons; eauto.
Qed.
(** processing does not depend on the table as long as the module listens, and data messages call no handler *)
Lemma data_any size tab sil tab' sil' nr m p p' s : listening tab sil nr -> listening tab' sil' nr ->
  async_rx size tab sil nr (0x15 :: m) p s = async_rx size tab' sil' nr (0x15 :: m) p' s.
Proof.
  intros A B. destruct (rx_listening size tab sil nr (0x15 :: m) p s A) as (q & _ & ->). destruct (rx_listening size tab' sil' nr (0x15 :: m) p' s B) as (q' & _ & ->).
  cbn [nth]. codeg 21. reflexivity.
Qed.
Lemma end_any size tab sil tab' sil' nr d p s : listening tab sil nr -> listening tab' sil' nr ->
  async_rx size tab sil nr (0x16 :: d) p s = async_rx size tab' sil' nr (0x16 :: d) p s.
Proof.
  intros A B. destruct (rx_listening size tab sil nr (0x16 :: d) p s A) as (q & _ & ->). destruct (rx_listening size tab' sil' nr (0x16 :: d) p s B) as (q' & _ & ->).
  cbn [nth]. codeg 22. reflexivity.
Qed.
Lemma datas_any size tab sil nr p : listening tab sil nr -> forall (ms : list (list byte)) ps s, Forall2 (proc nr p) ps (map (fun m => (nr, 0x15 :: m)) ms) ->
  xl_run size ps s = xl_run size (data_ops tab sil nr ms) s.
Proof.
  intros LI ms. induction ms as [|m r IH]; intros ps s P; cbn [map] in P; inversion P as [|? ? ? ? (t & z & -> & LT) P']; subst; [reflexivity|].
  unfold data_ops. cbn [map xl_run xl_step snd]. unfold xbind at 1 3. rewrite (data_any size t z tab sil nr m p nothing s LT LI).
  destruct (async_rx size tab sil nr (0x15 :: m) nothing s) as [[[e s1] o1]|]; [|reflexivity]. unfold xbind. rewrite (IH _ s1 P'). reflexivity.
Qed.
Lemma frames8 nr b : blk_ok b -> Forall (fun m : N * list byte => length (snd m) = 8%nat) (blk_frames nr b).
Proof.
  intros [F7 _]. unfold blk_frames. apply Forall_app. split; [|constructor; [reflexivity|constructor]]. clear -F7. induction F7; cbn [map]; constructor; auto. cbn [snd length]. f_equal. assumption.
Qed.
Lemma len7 (ms : list (list byte)) : Forall (fun m => length m = 7%nat) ms -> length (concat ms) = (7 * length ms)%nat.
Proof. induction 1 as [|m ms E F IH]; [reflexivity|]. cbn [concat length]. rewrite app_length. lia. Qed.

Ltac blia := change byte with N in *; lia.
(** ** a block *)
Lemma last_app {A} (l : list A) x d : last (l ++ [x]) d = x.
Proof. induction l as [|a l IH]; [reflexivity|]. cbn [app]. destruct (l ++ [x]) eqn:E; [destruct l; discriminate|exact IH]. Qed.
Lemma all_app r e : Forall (eq ERR_OK) (r ++ [e]) -> Forall (eq ERR_OK) r /\ e = ERR_OK.
Proof. intro F. apply Forall_app in F. destruct F as [F G]. inversion G; subst. auto. Qed.
Lemma frames_len nr b : length (blk_frames nr b) = S (length (b_msgs b)).
Proof. unfold blk_frames. rewrite app_length, map_length. cbn. blia. Qed.
Lemma polls_none nr p tl : Forall (poll_ok nr p) tl -> arrivals tl = [].
Proof. induction 1 as [|e l P F IH]; [reflexivity|destruct e; [destruct P|exact IH]]. Qed.
Lemma end_msg_two b : blk_end_msg b = 0x16 :: two (N.of_nat (length (b_bytes b))) ++ two (N.of_nat (length (b_msgs b))) ++ [0; 0; 0].
Proof. reflexivity. Qed.
(** all the data of the block processed: the block end, or its loss *)
Lemma end_good size nr h c l x b l1 o tab sil : downloading size nr h c l x -> good_blk size l b l1 o -> listening tab sil nr ->
  exists t z es x1, listening t z nr /\ xl_run size (data_ops t z nr (b_msgs b)) x = Some (es, x1, []) /\ xrel size (l ++ concat (b_msgs b)) (x_buf x1) /\
    x_objs x1 = N.of_nat (length (b_msgs b)) /\ x_bytes x1 = N.of_nat (length (concat (b_msgs b))) /\ x_prog x1 = InProgress /\
    exists x2, async_rx size tab sil nr (blk_end_msg b) (b_hand b) x1 = Some (ERR_OK, x2, XCalled HBlockEnd h c :: o ++ [ack_msg nr]) /\ downloading size nr h c l1 x2.
Proof.
  intros DL G LI. pose proof (dl_state _ _ _ _ _ _ DL) as (SZ & N1 & N2 & BT & C1 & P1 & H1). pose proof G as [[B7 BC] BO FIT OL].
  destruct DL as (pre & s & t & z & hs & he & name & crc & id & maxb & delay & blks & os & es & obs & RD & RQ & RC & M & D & DE & RUN).
  pose proof RD as [_ _ LT _ _ _ _ _]. pose proof (len7 _ B7) as L7.
  assert (LB : length (concat (b_msgs b)) = (length (b_bytes b) + length (b_fill b))%nat) by (rewrite BC, app_length; reflexivity).
  destruct (dl_data size t z nr l x (b_msgs b) LT BT B7 SZ) as (x1 & E1 & R1 & O1 & Y1 & S1); [blia|].
  exists t, z. eexists; exists x1. split; [exact LT|]. split; [exact E1|]. split; [exact R1|]. split; [exact O1|]. split; [exact Y1|]. destruct S1 as (S1 & S2 & S3 & S4 & S5 & S6 & S7).
  split; [congruence|].
  destruct (rx_end size t z nr (b_bytes b) (b_fill b) (b_msgs b) (b_hand b) h x1 l l1 o SZ N1 N2 LT) as (x2 & E2 & BT2 & T); [congruence|rewrite <- BC; exact R1|exact O1|rewrite <- BC; exact Y1|blia|exact BO|exact OL|].
  assert (EB : Blk (b_bytes b) (b_fill b) (b_msgs b) (b_hand b) = b) by (destruct b; reflexivity). rewrite EB in E2. rewrite S2, C1 in E2.
  exists x2. split; [rewrite <- E2, end_msg_two; apply end_any; assumption|].
  exists pre, s, t, z, hs, he, name, crc, id, maxb, delay, (blks ++ [b]). do 3 eexists. split; [exact RD|]. split; [exact RQ|]. split; [exact RC|]. split; [exact M|]. split; [exact D|].
  split; [apply (delivered_app _ _ _ _ _ _ _ _ DE _ _ _ G)|]. unfold dl_ops in *. rewrite map_app, concat_app, app_assoc, xl_run_app, RUN. cbn [map concat]. rewrite app_nil_r. unfold blk_ops.
  rewrite xl_run_app. unfold data_ops in E1. rewrite E1. cbn [xl_run xl_step]. rewrite (xbind_some _ _ _ _ _ _ E2). unfold xbind, xret. reflexivity.
Qed.

Lemma through L size nr h c l x q b l1 o evs tl : downloading size nr h c l x -> emptied L q -> good_blk size l b l1 o ->
  Forall (ev_ok nr (b_hand b)) evs -> arrivals evs = blk_frames nr b -> Forall (poll_ok nr (b_hand b)) tl -> (length (blk_frames nr b) <= length tl)%nat ->
  exists q' x' obs, dq_run L size (evs ++ tl) (DQS q x) = Some (DQS q' x', obs) /\ emptied L q' /\
    length (results obs) = length (blk_frames nr b) /\ Forall (fun e => e = ERR_OK \/ e = E_RX_QUEUE_OVERFLOW) (results obs) /\
    ((length (blk_frames nr b) <= L)%nat -> Forall (eq ERR_OK) (results obs)) /\
    (Forall (eq ERR_OK) (results obs) -> effects obs = XCalled HBlockEnd h c :: o ++ [ack_msg nr] /\ downloading size nr h c l1 x') /\
    (last (results obs) ERR_OK = ERR_OK -> ~ Forall (eq ERR_OK) (results obs) -> effects obs = [term_msg nr E_COUNT_NOT_MATCH] /\ x_prog x' = Idle) /\
    (last (results obs) ERR_OK <> ERR_OK -> effects obs = [] /\ x_prog x' = InProgress).
Proof.
  intros DL EM G FE AR FT LT. pose proof (dl_state _ _ _ _ _ _ DL) as (SZ & N1 & N2 & [BT1 BT2 BT3] & C1 & P1 & H1). pose proof G as [[B7 BC] BO FIT OL].
  pose proof (emptied_rel _ _ EM) as RQ. pose proof EM as (HL & _). pose proof (len7 _ B7) as L7.
  assert (LB : length (concat (b_msgs b)) = (length (b_bytes b) + length (b_fill b))%nat) by (rewrite BC, app_length; reflexivity).
  destruct (core L size nr (b_hand b) HL evs tl q x (b_msgs b) (blk_end_msg b) RQ FE AR B7 ltac:(reflexivity) FT) as (q' & rd & re & pd & R' & PD & LD & FR & BIG & RUN); [rewrite AR; exact LT|].
  rewrite AR in BIG. pose proof (kept_le (b_msgs b) rd) as KL. pose proof (kept_Forall _ _ rd B7) as K7. pose proof (len7 _ K7) as KC.
  assert (NX : forall x' obs, dq_run L size (evs ++ tl) (DQS q x) = Some (DQS q' x', obs) -> emptied L q').
  { intros x' obs D. apply (emptied_next L size (evs ++ tl) q x q' x' obs EM); auto. rewrite arrivals_app, (polls_none _ _ _ FT), app_nil_r, AR. apply frames8. split; assumption. }
  destruct (data_proc size nr (b_hand b) pd (kept (b_msgs b) rd) x l PD K7 BT1) as (es & x1 & EX & RX & OX & BX & SX); [blia|exact SZ|rewrite BT2; blia|rewrite BT3; blia|].
  destruct (RUN es x1 EX) as [RU1 RU2]. rewrite frames_len in *.
  destruct (N.eq_dec re ERR_OK) as [RE|RE].
  - destruct (RU2 RE) as (tab & sil & LI & K). clear RU1 RU2. subst re. destruct (Forall_dec (eq ERR_OK) (fun e => N.eq_dec ERR_OK e) rd) as [ALL|NOT].
    + destruct (end_good size nr h c l x b l1 o tab sil DL G LI) as (t & z & es' & x1' & LT' & E1 & R1 & O1 & Y1 & P1' & x2 & E2 & DL2).
      rewrite (kept_all (b_msgs b) rd) in PD by auto. rewrite (datas_any size t z nr (b_hand b) LT' _ _ _ PD), E1 in EX. injection EX as <- <-.
      destruct (K _ _ _ E2) as (obs & D & RS & EF). exists q', x2, obs. split; [exact D|]. split; [exact (NX _ _ D)|]. rewrite RS. split; [rewrite app_length, LD; cbn; blia|]. split; [exact FR|].
      split; [exact BIG|]. split; [intros _; split; assumption|]. assert (AA : Forall (eq ERR_OK) (rd ++ [ERR_OK])) by (apply Forall_app; split; [exact ALL|repeat constructor]).
      split; [intros _ X; contradiction|]. rewrite last_app. intro X. congruence.
    + pose proof (kept_less (b_msgs b) rd ltac:(auto) NOT) as LESS.
      destruct (wrong_end size nr (b_hand b) tab sil (blk_end_msg b) (N.of_nat (length (b_bytes b))) (N.of_nat (length (b_msgs b))) [0; 0; 0] x1 N1 N2 LI) as (x2 & E2 & PI); [apply end_msg_two|blia|rewrite OX, BT2; blia|].
      destruct (K _ _ _ E2) as (obs & D & RS & EF). exists q', x2, obs. split; [exact D|]. split; [exact (NX _ _ D)|]. rewrite RS. split; [rewrite app_length, LD; cbn; blia|]. split; [exact FR|].
      split; [exact BIG|]. split; [intro X; apply all_app in X; destruct X; contradiction|]. split; [intros _ _; split; assumption|]. rewrite last_app. intro X. congruence.
  - destruct (RU1 RE) as (obs & D & RS & EF). exists q', x1, obs. split; [exact D|]. split; [exact (NX _ _ D)|]. rewrite RS. split; [rewrite app_length, LD; cbn; blia|]. split; [exact FR|].
    split; [exact BIG|]. split; [intro X; apply all_app in X; destruct X as [_ X]; congruence|]. rewrite last_app. split; [intros X; congruence|]. intros _. split; [exact EF|]. destruct SX as (SX & _). congruence.
Qed.

(** ** the block end was refused, all the data accepted *)
Lemma lost L size nr h c l x q b l1 o evs tl q1 x1 obs : downloading size nr h c l x -> emptied L q -> good_blk size l b l1 o ->
  Forall (ev_ok nr (b_hand b)) evs -> arrivals evs = blk_frames nr b -> Forall (poll_ok nr (b_hand b)) tl -> (length (blk_frames nr b) <= length tl)%nat ->
  dq_run L size (evs ++ tl) (DQS q x) = Some (DQS q1 x1, obs) -> results obs = repeat ERR_OK (length (b_msgs b)) ++ [E_RX_QUEUE_OVERFLOW] ->
  emptied L q1 /\ exists t z es, listening t z nr /\ xl_run size (data_ops t z nr (b_msgs b)) x = Some (es, x1, []).
Proof.
  intros DL EM G FE AR FT LT RUNS RES. pose proof (dl_state _ _ _ _ _ _ DL) as (SZ & N1 & N2 & [BT1 BT2 BT3] & C1 & P1 & H1). pose proof G as [[B7 BC] BO FIT OL].
  pose proof (emptied_rel _ _ EM) as RQ. pose proof EM as (HL & _). pose proof (len7 _ B7) as L7.
  assert (LB : length (concat (b_msgs b)) = (length (b_bytes b) + length (b_fill b))%nat) by (rewrite BC, app_length; reflexivity).
  destruct (core L size nr (b_hand b) HL evs tl q x (b_msgs b) (blk_end_msg b) RQ FE AR B7 ltac:(reflexivity) FT) as (q' & rd & re & pd & R' & PD & LD & FR & BIG & RUN); [rewrite AR; exact LT|].
  pose proof (kept_le (b_msgs b) rd) as KL. pose proof (kept_Forall _ _ rd B7) as K7. pose proof (len7 _ K7) as KC.
  destruct (data_proc size nr (b_hand b) pd (kept (b_msgs b) rd) x l PD K7 BT1) as (es & x0 & EX & RX & OX & BX & SX); [blia|exact SZ|rewrite BT2; blia|rewrite BT3; blia|].
  destruct (RUN es x0 EX) as [RU1 RU2].
  assert (TZ : exists t z, listening t z nr). { destruct DL as (? & ? & t & z & ? & ? & ? & ? & ? & ? & ? & ? & ? & ? & ? & RD & _). exists t, z. destruct RD. assumption. }
  destruct TZ as (t & z & LI).
  assert (NE : re <> ERR_OK -> q' = q1 /\ x0 = x1 /\ rd = repeat ERR_OK (length (b_msgs b))).
  { intro RE. destruct (RU1 RE) as (ob & D & RS & _). rewrite RUNS in D. injection D as <- <- <-. rewrite RES in RS. apply app_inj_tail in RS. destruct RS as [RS _]. auto. }
  destruct (N.eq_dec re ERR_OK) as [RE|RE].
  - exfalso. destruct (RU2 RE) as (tab & sil & LI2 & K). subst re. destruct (Forall_dec (eq ERR_OK) (fun e => N.eq_dec ERR_OK e) rd) as [ALL|NOT].
    + destruct (end_good size nr h c l x b l1 o tab sil DL G LI2) as (t' & z' & es' & x1' & LT' & E1 & R1 & O1 & Y1 & P1' & x2 & E2 & DL2).
      rewrite (kept_all (b_msgs b) rd) in PD by auto. rewrite (datas_any size t' z' nr (b_hand b) LT' _ _ _ PD), E1 in EX. injection EX as <- <-.
      destruct (K _ _ _ E2) as (ob & D & RS & EF). rewrite RUNS in D. injection D as _ _ <-. rewrite RES in RS. apply app_inj_tail in RS. destruct RS as [_ RS]. discriminate.
    + pose proof (kept_less (b_msgs b) rd ltac:(auto) NOT) as LESS.
      destruct (wrong_end size nr (b_hand b) tab sil (blk_end_msg b) (N.of_nat (length (b_bytes b))) (N.of_nat (length (b_msgs b))) [0; 0; 0] x0 N1 N2 LI2) as (x2 & E2 & PI); [apply end_msg_two|blia|rewrite OX, BT2; blia|].
      destruct (K _ _ _ E2) as (ob & D & RS & EF). rewrite RUNS in D. injection D as _ _ <-. rewrite RES in RS. apply app_inj_tail in RS. destruct RS as [_ RS]. discriminate.
  - destruct (NE RE) as (-> & -> & ->). split.
    { apply (emptied_next L size (evs ++ tl) q x q1 x1 obs EM); auto. rewrite arrivals_app, (polls_none _ _ _ FT), app_nil_r, AR. apply frames8. split; assumption. }
    exists t, z, es. split; [exact LI|]. rewrite kept_all in PD; [|rewrite repeat_length; reflexivity|apply Forall_forall; intros e I; apply repeat_spec in I; auto].
    rewrite <- (datas_any size t z nr (b_hand b) LI _ _ _ PD). exact EX.
Qed.
Lemma end_again L size nr h c l x q b l1 o evs tl q1 x1 obs evs2 tl2 : downloading size nr h c l x -> emptied L q -> good_blk size l b l1 o ->
  Forall (ev_ok nr (b_hand b)) evs -> arrivals evs = blk_frames nr b -> Forall (poll_ok nr (b_hand b)) tl -> (length (blk_frames nr b) <= length tl)%nat ->
  dq_run L size (evs ++ tl) (DQS q x) = Some (DQS q1 x1, obs) -> results obs = repeat ERR_OK (length (b_msgs b)) ++ [E_RX_QUEUE_OVERFLOW] ->
  Forall (ev_ok nr (b_hand b)) evs2 -> arrivals evs2 = [(nr, blk_end_msg b)] -> Forall (poll_ok nr (b_hand b)) tl2 -> (1 <= length tl2)%nat ->
  exists q2 x2 obs2, dq_run L size (evs2 ++ tl2) (DQS q1 x1) = Some (DQS q2 x2, obs2) /\ emptied L q2 /\ results obs2 = [ERR_OK] /\
    effects obs2 = XCalled HBlockEnd h c :: o ++ [ack_msg nr] /\ downloading size nr h c l1 x2.
Proof.
  intros DL EM G FE AR FT LT RUNS RES FE2 AR2 FT2 LT2. destruct (lost _ _ _ _ _ _ _ _ _ _ _ _ _ _ _ _ DL EM G FE AR FT LT RUNS RES) as (EM1 & t & z & es & LI & EX).
  pose proof EM1 as (HL & _).
  destruct (core L size nr (b_hand b) HL evs2 tl2 q1 x1 [] (blk_end_msg b) (emptied_rel _ _ EM1) FE2 AR2 (Forall_nil _) ltac:(reflexivity) FT2) as (q' & rd & re & pd & R' & PD & LD & FR & BIG & RUN); [rewrite AR2; exact LT2|].
  destruct rd; [|discriminate]. cbn [kept map] in PD. inversion PD; subst. rewrite AR2 in BIG. specialize (BIG HL). inversion BIG; subst. destruct (RUN [] x1 eq_refl) as [_ RU]. destruct (RU eq_refl) as (tab & sil & LI2 & K).
  destruct (end_good size nr h c l x b l1 o tab sil DL G LI2) as (t' & z' & es' & x1' & LT' & E1 & R1 & O1 & Y1 & P1' & x2 & E2 & DL2).
  assert (PR : Forall2 (proc nr nothing) (data_ops t z nr (b_msgs b)) (map (fun m => (nr, 0x15 :: m)) (b_msgs b))).
  { unfold data_ops. clear -LI. induction (b_msgs b); cbn [map]; constructor; auto. exists t, z. auto. }
  rewrite (datas_any size t' z' nr nothing LT' _ _ x PR), E1 in EX. injection EX as _ ->.
  destruct (K _ _ _ E2) as (ob & D & RS & EF). exists q', x2, ob. split; [exact D|]. split; [|auto].
  apply (emptied_next L size (evs2 ++ tl2) q1 x1 q' x2 ob EM1); auto. rewrite arrivals_app, (polls_none _ _ _ FT2), app_nil_r, AR2. constructor; [reflexivity|constructor].
Qed.
Lemma block_again L size nr h c l x q b l1 o evs tl q1 x1 obs evs2 tl2 : downloading size nr h c l x -> emptied L q -> good_blk size l b l1 o ->
  Forall (ev_ok nr (b_hand b)) evs -> arrivals evs = blk_frames nr b -> Forall (poll_ok nr (b_hand b)) tl -> (length (blk_frames nr b) <= length tl)%nat ->
  dq_run L size (evs ++ tl) (DQS q x) = Some (DQS q1 x1, obs) -> results obs = repeat ERR_OK (length (b_msgs b)) ++ [E_RX_QUEUE_OVERFLOW] ->
  Forall (ev_ok nr (b_hand b)) evs2 -> arrivals evs2 = blk_frames nr b -> Forall (poll_ok nr (b_hand b)) tl2 -> (length (blk_frames nr b) <= length tl2)%nat ->
  b_msgs b <> [] -> (length l + 2 * length (concat (b_msgs b)) <= size)%nat ->
  exists q2 x2 obs2, dq_run L size (evs2 ++ tl2) (DQS q1 x1) = Some (DQS q2 x2, obs2) /\
    (Forall (eq ERR_OK) (results obs2) -> effects obs2 = [term_msg nr E_COUNT_NOT_MATCH] /\ x_prog x2 = Idle).
Proof.
  intros DL EM G FE AR FT LT RUNS RES FE2 AR2 FT2 LT2 NE FIT2. destruct (lost _ _ _ _ _ _ _ _ _ _ _ _ _ _ _ _ DL EM G FE AR FT LT RUNS RES) as (EM1 & t & z & es & LI & EX).
  pose proof (dl_state _ _ _ _ _ _ DL) as (SZ & N1 & N2 & BT & C1 & P1 & H1). pose proof G as [[B7 BC] BO FIT OL]. pose proof (len7 _ B7) as L7.
  pose proof EM1 as (HL & _). destruct (dl_data size t z nr l x (b_msgs b) LI BT B7 SZ) as (x1' & E1 & R1 & O1 & Y1 & S1); [blia|]. rewrite EX in E1. injection E1 as _ <-.
  destruct (core L size nr (b_hand b) HL evs2 tl2 q1 x1 (b_msgs b) (blk_end_msg b) (emptied_rel _ _ EM1) FE2 AR2 B7 ltac:(reflexivity) FT2) as (q' & rd & re & pd & R' & PD & LD & FR & BIG & RUN); [rewrite AR2; exact LT2|].
  pose proof (kept_le (b_msgs b) rd) as KL. pose proof (kept_Forall _ _ rd B7) as K7. pose proof (len7 _ K7) as KC.
  destruct (data_proc size nr (b_hand b) pd (kept (b_msgs b) rd) x1 _ PD K7 R1) as (es2 & x0 & EX2 & RX & OX & BX & SX); [rewrite app_length; blia|exact SZ|rewrite O1; blia|rewrite Y1; blia|].
  destruct (RUN es2 x0 EX2) as [RU1 RU2]. destruct (N.eq_dec re ERR_OK) as [RE|RE].
  - destruct (RU2 RE) as (tab & sil & LI2 & K). subst re. destruct (N.eq_dec (x_objs x0) (N.of_nat (length (b_msgs b)))) as [EQ|NQ].
    + (* nothing was kept of the repetition *)
      assert (Z : kept (b_msgs b) rd = []) by (destruct (kept (b_msgs b) rd) as [|k0 kk]; [reflexivity|cbn [length] in OX; blia]).
      rewrite Z in PD. cbn [map] in PD. inversion PD; subst pd. injection EX2 as _ <-.
      destruct (end_good size nr h c l x b l1 o tab sil DL G LI2) as (t' & z' & es' & xx & LT' & F1 & _ & _ & _ & _ & x2 & E2 & _).
      assert (PR : Forall2 (proc nr nothing) (data_ops t z nr (b_msgs b)) (map (fun m => (nr, 0x15 :: m)) (b_msgs b))).
      { unfold data_ops. clear -LI. induction (b_msgs b); cbn [map]; constructor; auto. exists t, z. auto. }
      rewrite (datas_any size t' z' nr nothing LT' _ _ x PR), F1 in EX. injection EX as _ ->.
      destruct (K _ _ _ E2) as (ob & D & RS & EF). exists q', x2, ob. split; [exact D|]. rewrite RS. intro X. apply all_app in X. destruct X as [X _].
      rewrite kept_all in Z by auto. contradiction.
    + destruct (wrong_end size nr (b_hand b) tab sil (blk_end_msg b) (N.of_nat (length (b_bytes b))) (N.of_nat (length (b_msgs b))) [0; 0; 0] x0 N1 N2 LI2) as (x2 & E2 & PI); [apply end_msg_two|blia|auto|].
      destruct (K _ _ _ E2) as (ob & D & RS & EF). exists q', x2, ob. split; [exact D|]. intros _. split; assumption.
  - destruct (RU1 RE) as (ob & D & RS & EF). exists q', x0, ob. split; [exact D|]. rewrite RS. intro X. apply all_app in X. destruct X as [_ X]. congruence.
Qed.
Lemma chain L size nr h c : forall items l x q l' os, downloading size nr h c l x -> emptied L q -> delivered size nr h c l (map fst items) l' os ->
  Forall (scheduled nr) items -> Forall (fun i => (length (blk_frames nr (fst i)) <= L)%nat) items ->
  exists q' x' obs, dq_run L size (concat (map events items)) (DQS q x) = Some (DQS q' x', obs) /\ effects obs = os /\ Forall (eq ERR_OK) (results obs) /\
    downloading size nr h c l' x' /\ emptied L q'.
Proof.
  induction items as [|[b [evs tl]] items IH]; intros l x q l' os DL EM DE FS FL; cbn [map fst concat events] in *.
  - inversion DE; subst. exists q, x, []. split; [reflexivity|]. split; [reflexivity|]. split; [constructor|]. auto.
  - inversion FS as [|? ? SS FS']; subst. unfold scheduled in SS. destruct SS as (S1 & S2 & S3 & S4). inversion FL as [|? ? L1 FL']; subst. cbn [fst] in L1. inversion DE as [|? ? l1 o r l2 os' D1 D2 D3 D4 D5]; subst.
    destruct (through L size nr h c l x q b l1 o evs tl DL EM ltac:(constructor; assumption) S1 S2 S3 S4) as (q1 & x1 & ob1 & R1 & EM1 & _ & _ & BIG & ALL & _).
    destruct (ALL (BIG L1)) as [EF1 DL1]. destruct (IH l1 x1 q1 l' os' DL1 EM1 D5 FS' FL') as (q2 & x2 & ob2 & R2 & EF2 & RS2 & DL2 & EM2).
    exists q2, x2, (ob1 ++ ob2). unfold events at 1. cbn [fst snd]. rewrite dq_run_app, R1, R2. split; [reflexivity|]. rewrite effects_app, results_app, EF1, EF2. split; [cbn [app]; rewrite <- app_assoc; reflexivity|].
    split; [apply Forall_app; split; [exact (BIG L1)|exact RS2]|]. auto.
Qed.
