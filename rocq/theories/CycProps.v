(** C106: in a cycle every object of the bus is sent once. *)
From Verif Require Import Words WordsFacts ErrModel NodeModel NodeLib NodeInv NodeSpec NodeHw NodeSysP NodeTx NodeSend NodeNum NodeTxProps NodeBusSpec NodeBusProps NodeEx CommSpec CycSpec.

Definition obj_id (s : node) (x : nat * nat) : N := data_tx_id (m_nr (modat s (fst x))) (snd x).
Definition fid (f : N * N * list byte) : N := fst (fst f).
Lemma data_ids_app a c : data_ids (a ++ c) = data_ids a ++ data_ids c.
Proof. unfold data_ids. rewrite map_app, filter_app. reflexivity. Qed.
Lemma obj_ge s x : 1024 <= obj_id s x.
Proof. unfold obj_id, data_tx_id. lia. Qed.
Lemma cyc_ids s l : forall can, exists k, data_ids (cyc_frames s l can) = map (obj_id s) k /\ (forall x, In x k -> In x l) /\ (NoDup (map (obj_id s) l) -> NoDup (map (obj_id s) k)) /\
  ((forall p o can, In (p, o) l -> exists can', convert s p o can = Some (can', ERR_OK)) -> k = l).
Proof.
  induction l as [|[p o] l IH]; intro can; cbn [cyc_frames]; [exists []; repeat split; auto|].
  destruct (convert s p o can) as [[can' e]|] eqn:C.
  - destruct (IH can') as (k & D & I & N & F). rewrite data_ids_app. destruct (e =? ERR_OK) eqn:Q.
    + exists ((p, o) :: k). split; [|split; [|split]].
      * unfold data_ids at 1. cbn [map filter fst app]. pose proof (obj_ge s (p, o)) as G. unfold obj_id in G. cbn [fst snd] in G. apply N.leb_le in G. rewrite G. cbn [app map]. rewrite D. reflexivity.
      * intros x [<-|H]; [left; reflexivity|right; apply I, H].
      * cbn [map]. intro H. inversion H as [|? ? H1 H2]; subst. constructor; [|apply N, H2]. intro X. apply H1. apply in_map_iff in X. destruct X as (y & Y1 & Y2). rewrite <- Y1. apply in_map, I, Y2.
      * intro H. rewrite F; [reflexivity|]. intros p1 o1 c1 I1. apply H. right. exact I1.
    + exists k. split; [exact D|]. split; [intros x H; right; apply I, H|]. split; [cbn [map]; intro H; inversion H; auto|].
      intro H. destruct (H p o can (or_introl eq_refl)) as [c1 H1]. rewrite C in H1. injection H1 as _ ->. discriminate Q.
  - exists []. split; [reflexivity|]. split; [intros x []|]. split; [constructor|]. intro H. destruct (H p o can (or_introl eq_refl)) as [c1 H1]. congruence.
Qed.
Lemma NoDup_app {A} (l k : list A) : NoDup l -> NoDup k -> (forall x, In x l -> ~ In x k) -> NoDup (l ++ k).
Proof.
  induction l as [|x l IH]; intros Nl Nk D; [exact Nk|]. inversion Nl as [|? ? N1 N2]; subst. cbn [app]. constructor.
  - rewrite in_app_iff. intros [H|H]; [auto|]. apply (D x); [left; reflexivity|exact H].
  - apply IH; auto. intros y Hy. apply D. right. exact Hy.
Qed.
Section One.
Variable c : station.
Hypothesis Hc : in_order c.
Let s := st_node c.
Let E := st_env c.
Lemma one_facts : WF E s /\ TxI E s /\ NrI E s.
Proof. destruct Hc as (HE & pre & F & R). split; [eapply WF_reached; exact R|]. split; [eapply TxI_reached; eauto|eapply NrI_reached; eauto]. Qed.
Lemma enabled_part p o : In (p, o) (enabled s) <-> takes_part c p o.
Proof.
  destruct one_facts as (W & I & _). unfold enabled, takes_part. fold s. rewrite in_flat_map. split.
  - intros (q & Hq & H). apply in_seq in Hq. destruct (awake s q) eqn:A; [|destruct H]. apply in_map_iff in H. destruct H as (o' & X & Ho). injection X as -> ->. apply in_seq in Ho.
    split; [|split; [exact A|lia]]. destruct (in_use (modat s p)) eqn:U; [reflexivity|]. rewrite (tab_len E s W) in Hq. destruct (ti_unused E s I p ltac:(lia) U) as [Z _]. unfold ntx in Z. lia.
  - intros (U & A & L). exists p. split; [|rewrite A; apply in_map, in_seq; lia]. apply in_seq. split; [lia|]. destruct (Nat.lt_ge_cases p (length (tab_of s))) as [Q|Q]; [lia|].
    exfalso. unfold modat in L. rewrite nth_overflow in L by exact Q. cbn in L. lia.
Qed.
Lemma tab_bound p o : takes_part c p o -> (p < MAXM E)%nat /\ (o < 4)%nat /\ 2 <= m_nr (modat s p) <= 255.
Proof.
  intro T. destruct one_facts as (W & I & _). pose proof (proj2 (enabled_part p o) T) as H. unfold enabled in H. apply in_flat_map in H. destruct H as (q & Hq & H). apply in_seq in Hq. rewrite (tab_len E s W) in Hq.
  destruct (awake s q); [|destruct H]. apply in_map_iff in H. destruct H as (o' & X & Ho). injection X as -> ->. split; [lia|]. split; [|apply (ti_nr E s I); lia].
  apply in_seq in Ho. pose proof (modat_ok E s p W) as M. destruct M as (_ & M & _). unfold NOBJ in M. lia.
Qed.
Lemma obj_inj x y : In x (enabled s) -> In y (enabled s) -> obj_id s x = obj_id s y -> x = y.
Proof.
  destruct x as [p o], y as [q r]. rewrite !enabled_part. intros Tx Ty. destruct (tab_bound _ _ Tx) as (P1 & P2 & P3). destruct (tab_bound _ _ Ty) as (Q1 & Q2 & Q3).
  unfold obj_id, data_tx_id. cbn [fst snd]. intro H. destruct Tx as (Ux & _), Ty as (Uy & _). fold s in Ux, Uy. assert (m_nr (modat s p) = m_nr (modat s q) /\ o = r) as [Nr ->] by lia.
  destruct one_facts as (_ & _ & N). destruct (Nat.lt_trichotomy p q) as [L|[->|L]]; [|reflexivity|].
  - exfalso. exact (nr_diff E s N p q L Q1 Ux Uy Nr).
  - exfalso. apply (nr_diff E s N q p L P1 Uy Ux). auto.
Qed.
Lemma NoDup_flat {A B} (f : A -> list B) l : NoDup l -> (forall x, In x l -> NoDup (f x)) -> (forall x y z, In x l -> In y l -> In z (f x) -> In z (f y) -> x = y) -> NoDup (flat_map f l).
Proof.
  induction 1 as [|x l Nx Nl IH]; intros Hf D; cbn [flat_map]; [constructor|]. apply NoDup_app.
  - apply Hf. left. reflexivity.
  - apply IH; [intros; apply Hf; right; auto|]. intros y z w Hy Hz. apply D; right; auto.
  - intros z Hz Hl. apply in_flat_map in Hl. destruct Hl as (y & Iy & Hy). apply Nx. rewrite (D x y z (or_introl eq_refl) (or_intror Iy) Hz Hy). exact Iy.
Qed.
Lemma enabled_nodup : NoDup (enabled s).
Proof.
  unfold enabled. apply NoDup_flat; [apply seq_NoDup| |].
  - intros p _. destruct (awake s p); [|constructor]. generalize (m_ntx (modat s p)). intro n. generalize 0%nat. induction n as [|n IH]; intro k; cbn; constructor; auto.
    rewrite in_map_iff. intros (z & X & Z). injection X as ->. apply in_seq in Z. lia.
  - intros p q z _ _ Hp Hq. destruct (awake s p); [|destruct Hp]. destruct (awake s q); [|destruct Hq]. apply in_map_iff in Hp, Hq. destruct Hp as (a & <- & _), Hq as (d & X & _). injection X as -> _. reflexivity.
Qed.
Lemma NoDup_map_in {A B} (f : A -> B) l : NoDup l -> (forall x y, In x l -> In y l -> f x = f y -> x = y) -> NoDup (map f l).
Proof.
  induction 1 as [|x l Nx Nl IH]; intro Inj; cbn; constructor.
  - rewrite in_map_iff. intros (y & Q & Hy). apply Nx. rewrite (Inj x y); auto; [left; reflexivity|right; exact Hy].
  - apply IH. intros y z Hy Hz. apply Inj; right; auto.
Qed.
Lemma one_cycle dlc now fs : cycle dlc now c fs -> exists k, data_ids fs = map (obj_id s) k /\ (forall x, In x k -> In x (enabled s)) /\ NoDup (data_ids fs) /\ (converts c -> k = enabled s).
Proof.
  intros (s' & new & H & A & ->). pose proof Hc as (HE & pre & F & R).
  destruct (C05_every_enabled_object_once _ pre _ _ _ _ _ _ HE F R H) as (new2 & st & A2 & Rp & S).
  assert (new2 = new) as -> by (unfold added in A, A2; rewrite A in A2; apply app_inv_head in A2; auto). rewrite S.
  destruct (cyc_ids s (enabled s) (JUNK E)) as (k & D & I & N & Fl). exists k. fold s E. rewrite data_ids_app.
  assert (data_ids (match pending_errors st with [] => [] | e :: _ => error_tx s e end) = []) as Z.
  { destruct (pending_errors st) as [|e l]; [reflexivity|]. unfold error_tx. destruct (speaks s (error_nr s e)); [|reflexivity]. unfold data_ids. cbn [map filter fst].
    assert (sys_tx_id (error_nr s e) < 1024) as L.
    { destruct one_facts as (W & Ti & _). unfold sys_tx_id, error_nr. destruct ((2 <=? e_module e) && (e_module e <=? 124)) eqn:Q; [lia|]. 
      pose proof (ti_nr E s Ti 0%nat) as K. specialize (K ltac:(apply HE)). lia. }
    destruct (1024 <=? sys_tx_id (error_nr s e)) eqn:Q; [lia|reflexivity]. }
  rewrite Z, app_nil_r, D. split; [reflexivity|]. split; [exact I|]. split.
  - apply N, NoDup_map_in; [apply enabled_nodup|apply obj_inj].
  - intro Cv. apply Fl. intros p o can Hin. apply Cv. apply enabled_part. exact Hin.
Qed.
End One.
Lemma data_ids_concat {A} (l : list A) (f : A -> list (N * N * list byte)) : data_ids (flat_map f l) = flat_map (fun x => data_ids (f x)) l.
Proof. induction l as [|x l IH]; [reflexivity|]. cbn [flat_map]. rewrite data_ids_app, IH. reflexivity. Qed.
Lemma id_origin bus dlc now frames id : Forall in_order bus -> Forall2 (cycle dlc now) bus frames -> In id (data_ids (concat frames)) ->
  exists c p o, In c bus /\ takes_part c p o /\ id = data_tx_id (number c p) o.
Proof.
  intros F C. revert F. induction C as [|c fs bus frames C _ IH]; intros F H; [destruct H|]. inversion F as [|? ? F1 F2]; subst. cbn [concat] in H. rewrite data_ids_app, in_app_iff in H. destruct H as [H|H].
  - destruct (one_cycle c F1 _ _ _ C) as (k & D & I & _). rewrite D in H. apply in_map_iff in H. destruct H as ([p o] & <- & Hk). exists c, p, o. split; [left; reflexivity|].
    split; [apply (enabled_part c F1), I, Hk|]. reflexivity.
  - destruct (IH F2 H) as (c' & p & o & Hc & T & Q). exists c', p, o. split; [right; exact Hc|auto].
Qed.
(** No identifier of process data is sent twice in a cycle, by whatever nodes, *)
Theorem C106_no_collision : forall bus dlc now frames,
  Forall in_order bus -> apart bus -> Forall2 (cycle dlc now) bus frames -> NoDup (data_ids (concat frames)).
Proof.
  intros bus dlc now frames F A C. revert F A. induction C as [|c fs bus frames C Cs IH]; intros F A; [constructor|]. inversion F as [|? ? F1 F2]; subst. inversion A as [|? ? A1 A2]; subst.
  cbn [concat]. rewrite data_ids_app. destruct (one_cycle c F1 _ _ _ C) as (k & D & I & N & _). apply NoDup_app; [exact N|apply IH; auto|].
  intros id H1 H2. destruct (id_origin _ _ _ _ _ F2 Cs H2) as (c2 & q & r & Hc2 & T2 & Q2). rewrite D in H1. apply in_map_iff in H1. destruct H1 as ([p o] & Q1 & Hk).
  apply I, (enabled_part c F1) in Hk. rewrite Forall_forall in A1, F2. specialize (A1 c2 Hc2). specialize (F2 c2 Hc2).
  destruct (tab_bound c F1 p o Hk) as (_ & O1 & M1). destruct (tab_bound c2 F2 q r T2) as (_ & O2 & M2). destruct Hk as (U1 & _), T2 as (U2 & _).
  apply (A1 p q U1 U2). unfold obj_id, data_tx_id, number in *. cbn [fst snd] in Q1. lia.
Qed.
Print Assumptions C106_no_collision.
(** every identifier belongs to a transmit object of an awake module of the bus, *)
Theorem C106_only : forall bus dlc now frames id,
  Forall in_order bus -> Forall2 (cycle dlc now) bus frames -> In id (data_ids (concat frames)) ->
  exists c p o, In c bus /\ takes_part c p o /\ id = data_tx_id (number c p) o.
Proof. exact id_origin. Qed.
Print Assumptions C106_only.
(** and every such object whose node has no failing conversion is sent, so exactly once. *)
Theorem C106_all : forall bus dlc now frames c p o,
  Forall in_order bus -> Forall2 (cycle dlc now) bus frames -> In c bus -> converts c -> takes_part c p o ->
  In (data_tx_id (number c p) o) (data_ids (concat frames)).
Proof.
  intros bus dlc now frames c p o F C. revert F. induction C as [|c1 fs bus frames C Cs IH]; intros F Hc Cv T; [destruct Hc|]. inversion F as [|? ? F1 F2]; subst.
  cbn [concat]. rewrite data_ids_app, in_app_iff. destruct Hc as [->|Hc]; [left|right; apply IH; auto].
  destruct (one_cycle c F1 _ _ _ C) as (k & D & _ & _ & Fl). rewrite D, (Fl Cv). change (data_tx_id (number c p) o) with (obj_id (st_node c) (p, o)). apply in_map, (enabled_part c F1), T.
Qed.
Print Assumptions C106_all.

(** What is sent under the identifier of an object is the data of that object, *)
Lemma cyc_in s l : forall can f, In f (cyc_frames s l can) -> exists p o can can', In (p, o) l /\ convert s p o can = Some (can', ERR_OK) /\
  f = (data_tx_id (m_nr (modat s p)) o, t_dlc (txat (modat s p) o), firstn (N.to_nat (t_dlc (txat (modat s p) o))) can').
Proof.
  induction l as [|[p o] l IH]; intros can f H; cbn [cyc_frames] in H; [destruct H|]. destruct (convert s p o can) as [[can' e]|] eqn:C; [|destruct H].
  rewrite in_app_iff in H. destruct H as [H|H].
  - destruct (e =? ERR_OK) eqn:Q; [|destruct H]. destruct H as [<-|[]]. apply N.eqb_eq in Q. subst e. exists p, o, can, can'. split; [left; reflexivity|]. auto.
  - destruct (IH _ _ H) as (p1 & o1 & c1 & c2 & I & R). exists p1, o1, c1, c2. split; [right; exact I|exact R].
Qed.
Lemma cycle_in c dlc now fs f : in_order c -> cycle dlc now c fs -> In f fs -> 1024 <= fid f -> exists p o, takes_part c p o /\ carries c p o f.
Proof.
  intros Hc (s' & new & H & A & ->) Hf Hi. pose proof Hc as (HE & pre & F & R).
  destruct (C05_every_enabled_object_once _ pre _ _ _ _ _ _ HE F R H) as (new2 & st & A2 & Rp & S).
  assert (new2 = new) as -> by (unfold added in A, A2; rewrite A in A2; apply app_inv_head in A2; auto). rewrite S in Hf. apply in_app_iff in Hf. destruct Hf as [Hf|Hf].
  - destruct (cyc_in _ _ _ _ Hf) as (p & o & can & can' & I & C & ->). exists p, o. split; [apply (enabled_part c Hc), I|].
    unfold convert in C. unfold carries. cbv zeta in *. destruct (nth_error _ _) as [app|] eqn:M; [|discriminate C]. destruct (t_conv_s _) as [g|] eqn:G; [|discriminate C].
    injection C as C. exists app, g, can, can'. split; [reflexivity|]. split; [reflexivity|]. split; [exact C|reflexivity].
  - exfalso. destruct (pending_errors st) as [|e l]; [destruct Hf|]. unfold error_tx in Hf. destruct (speaks _ (error_nr _ e)); [|destruct Hf]. destruct Hf as [<-|[]]. unfold fid in Hi. cbn [fst] in Hi.
    destruct (one_facts c Hc) as (W & Ti & _). pose proof (ti_nr _ _ Ti 0%nat ltac:(apply HE)) as K. unfold sys_tx_id, error_nr in Hi. destruct ((2 <=? e_module e) && (e_module e <=? 124)) eqn:Q; lia.
Qed.
Lemma carries_id c p o f : carries c p o f -> fid f = data_tx_id (number c p) o.
Proof. intros (? & ? & ? & ? & _ & _ & _ & ->). reflexivity. Qed.
Lemma id_ge nr o : 1024 <= data_tx_id nr o.
Proof. unfold data_tx_id. lia. Qed.
Lemma other_id c c2 p o q r : in_order c -> in_order c2 -> numbers_apart (st_node c) (st_node c2) -> takes_part c p o -> takes_part c2 q r ->
  data_tx_id (number c p) o <> data_tx_id (number c2 q) r.
Proof.
  intros F1 F2 A T1 T2 Q. destruct (tab_bound c F1 p o T1) as (_ & O1 & M1). destruct (tab_bound c2 F2 q r T2) as (_ & O2 & M2). destruct T1 as (U1 & _), T2 as (U2 & _).
  apply (A p q U1 U2). unfold data_tx_id, number in *. lia.
Qed.
Theorem C106_data : forall bus dlc now frames c p o f,
  Forall in_order bus -> apart bus -> Forall2 (cycle dlc now) bus frames -> In c bus -> takes_part c p o ->
  In f (concat frames) -> fst (fst f) = data_tx_id (number c p) o -> carries c p o f.
Proof.
  intros bus dlc now frames c p o f F A C. revert F A. induction C as [|c1 fs bus frames C Cs IH]; intros F A Hc T Hf Q; [destruct Hc|].
  inversion F as [|? ? F1 F2]; subst. inversion A as [|? ? A1 A2]; subst. rewrite Forall_forall in A1. pose proof F2 as F2'. rewrite Forall_forall in F2'.
  cbn [concat] in Hf. rewrite in_app_iff in Hf. destruct Hf as [Hf|Hf].
  - destruct (cycle_in c1 _ _ _ f F1 C Hf ltac:(unfold fid; rewrite Q; apply id_ge)) as (q & r & T1 & K). pose proof (carries_id _ _ _ _ K) as Q1. unfold fid in Q1. rewrite Q in Q1. destruct Hc as [->|Hc].
    + assert ((p, o) = (q, r)) as X by (apply (obj_inj c F1); [apply (enabled_part c F1), T|apply (enabled_part c F1), T1|exact Q1]). injection X as -> ->. exact K.
    + exfalso. symmetry in Q1. exact (other_id c1 c q r p o F1 (F2' c Hc) (A1 c Hc) T1 T Q1).
  - destruct Hc as [->|Hc]; [|apply IH; auto]. exfalso.
    assert (In (fid f) (data_ids (concat frames))) as I.
    { unfold data_ids. apply filter_In. split; [apply in_map_iff; exists f; auto|]. apply N.leb_le. unfold fid. rewrite Q. apply id_ge. }
    destruct (id_origin _ _ _ _ _ F2 Cs I) as (c2 & q & r & Hc2 & T2 & Q2). unfold fid in Q2. rewrite Q in Q2. exact (other_id c c2 p o q r F1 (F2' c2 Hc2) (A1 c2 Hc2) T T2 Q2).
Qed.
Print Assumptions C106_data.
(** so a receiver finds, under the identifier of every object, one frame, and in it the application's data. *)
Lemma under_ids id fs : 1024 <= id -> NoDup (data_ids fs) -> In id (data_ids fs) -> exists f, under id fs = [f].
Proof.
  intros G. induction fs as [|f fs IH]; [intros _ []|]. unfold data_ids. cbn [map filter]. change (filter _ (map _ fs)) with (data_ids fs). unfold under. cbn [filter]. change (filter _ fs) with (under id fs).
  intros N I. destruct (fst (fst f) =? id) eqn:Q.
  - apply N.eqb_eq in Q. rewrite Q in *. apply N.leb_le in G. rewrite G in *. inversion N as [|? ? N1 N2]; subst. exists f. f_equal.
    destruct (under (fst (fst f)) fs) as [|k l] eqn:U; [reflexivity|]. exfalso. apply N1. assert (In k (under (fst (fst f)) fs)) as K by (rewrite U; left; reflexivity).
    unfold under in K. apply filter_In in K. destruct K as [K1 K2]. apply N.eqb_eq in K2. unfold data_ids. apply filter_In. split; [apply in_map_iff; exists k; auto|exact G].
  - apply IH.
    + destruct (1024 <=? fst (fst f)); [inversion N; auto|exact N].
    + destruct (1024 <=? fst (fst f)); [|exact I]. destruct I as [I|I]; [|exact I]. apply N.eqb_neq in Q. contradiction.
Qed.
Theorem C106_read : forall bus dlc now frames c p o d,
  Forall in_order bus -> apart bus -> Forall2 (cycle dlc now) bus frames -> In c bus -> converts c -> takes_part c p o -> writes c p o d ->
  under (data_tx_id (number c p) o) (concat frames) = [(data_tx_id (number c p) o, t_dlc (txat (modat (st_node c) p) o), d)].
Proof.
  intros bus dlc now frames c p o d F A C Hc Cv T (app & g & M & G & W).
  destruct (under_ids (data_tx_id (number c p) o) (concat frames) (id_ge _ _) (C106_no_collision _ _ _ _ F A C) (C106_all _ _ _ _ _ _ _ F C Hc Cv T)) as [f U].
  rewrite U. assert (In f (under (data_tx_id (number c p) o) (concat frames))) as I by (rewrite U; left; reflexivity). unfold under in I. apply filter_In in I. destruct I as [I Q]. apply N.eqb_eq in Q.
  destruct (C106_data _ _ _ _ _ _ _ _ F A C Hc T I Q) as (app' & g' & can & can' & M' & G' & K & ->). rewrite M in M'. rewrite G in G'. injection M' as <-. injection G' as <-. rewrite <- (W can), K. reflexivity.
Qed.
Print Assumptions C106_read.

(** *** three nodes *)
Definition other (k nr : N) : list op := [OpAdd (desc k 1 2) nr [0;0;0;0]%nat [4;5;0;0]%nat; sleep 50 20].
Definition bus3 : list station := [Station E0 (after add2); Station E0 (after (other 51 30)); Station E0 (after (other 52 40 ++ [OpError 5 1 40]))].
Definition frames_of (pre : list op) : list (N * N * list byte) := sent (delta pre [request 0 7]).
Lemma in_order_after pre : fine pre = true -> forallb plainb pre = true -> in_order (Station E0 (after pre)).
Proof. intros F P. split; [exact E0_ok|]. exists pre. split; [apply plainb_ok, P|apply reached_after, F]. Qed.
Lemma cycle_after pre : fine (pre ++ [request 0 7]) = true -> n_log (after (pre ++ [request 0 7])) = n_log (after pre) ++ delta pre [request 0 7] -> cycle 0 7 (Station E0 (after pre)) (frames_of pre).
Proof. intros F L. exists (after (pre ++ [request 0 7])), (delta pre [request 0 7]). split; [apply after_step, F|]. split; [exact L|reflexivity]. Qed.
Example C106_case : Forall in_order bus3 /\ apart bus3 /\
  Forall2 (cycle 0 7) bus3 [frames_of add2; frames_of (other 51 30); frames_of (other 52 40 ++ [OpError 5 1 40])] /\
  data_ids (concat [frames_of add2; frames_of (other 51 30); frames_of (other 52 40 ++ [OpError 5 1 40])]) = [1060; 1061; 1100; 1140; 1141; 1180; 1181].
Proof.
  split; [|split; [|split]].
  - unfold bus3. repeat (apply Forall_cons; [apply in_order_after; vm_compute; reflexivity|]). apply Forall_nil.
  - unfold apart, bus3. repeat (apply FOP_cons; [repeat (apply Forall_cons; [cbn [st_node]; apply apartb_ok; vm_compute; reflexivity|]); apply Forall_nil|]). apply FOP_nil.
  - unfold bus3. repeat (apply Forall2_cons; [apply cycle_after; vm_compute; reflexivity|]). apply Forall2_nil.
  - vm_compute. reflexivity.
Qed.
Lemma add2_enabled : enabled (after add2) = [(0, 0); (0, 1); (1, 0)]%nat.
Proof. vm_compute. reflexivity. Qed.
Lemma add2_conv p o can : In (p, o) [(0, 0); (0, 1); (1, 0)]%nat -> convert (after add2) p o can = Some (match convert (after add2) p o can with Some (x, _) => x | None => [] end, ERR_OK).
Proof. intro T. destruct T as [X|[X|[X|[]]]]; injection X as <- <-; vm_compute; reflexivity. Qed.
Lemma add2_order : in_order (Station E0 (after add2)).
Proof. apply in_order_after; vm_compute; reflexivity. Qed.
Lemma converts_list c l : in_order c -> enabled (st_node c) = l ->
  (forall p o can, In (p, o) l -> convert (st_node c) p o can = Some (match convert (st_node c) p o can with Some (x, _) => x | None => [] end, ERR_OK)) -> converts c.
Proof. intros Io Q H p o can T. apply (proj2 (enabled_part _ Io p o)) in T. rewrite Q in T. eexists. apply H, T. Qed.
Example C106_converts_case : In (Station E0 (after add2)) bus3 /\ converts (Station E0 (after add2)) /\ takes_part (Station E0 (after add2)) 1 0.
Proof.
  split; [left; reflexivity|]. split; [exact (converts_list _ _ add2_order add2_enabled add2_conv)|].
  apply (proj1 (enabled_part _ add2_order 1%nat 0%nat)). refine (eq_ind_r (fun l => In (1%nat, 0%nat) l) _ add2_enabled). right. right. left. reflexivity.
Qed.
Lemma writes_intro c p o a app g d : t_addr (txat (modat (st_node c) p) o) = a -> nth_error (n_mem (st_node c)) a = Some app -> t_conv_s (txat (modat (st_node c) p) o) = Some g ->
  (forall can, firstn (N.to_nat (t_dlc (txat (modat (st_node c) p) o))) (fst (g can (firstn 8 app) (t_dlc (txat (modat (st_node c) p) o)))) = d) -> writes c p o d.
Proof. intros Ha M G W. exists app, g. rewrite Ha. split; [exact M|]. split; [exact G|exact W]. Qed.
Lemma add2_obj : t_addr (txat (modat (after add2) 1) 0) = 6%nat /\ t_conv_s (txat (modat (after add2) 1) 0) = Some txc /\ t_dlc (txat (modat (after add2) 1) 0) = 8 /\
  nth_error (n_mem (after add2)) 6 = Some [6;6;6;6;6;6;6;6].
Proof. split; [vm_compute; reflexivity|]. split; [vm_compute; reflexivity|]. split; vm_compute; reflexivity. Qed.
Example C106_read_case : takes_part (Station E0 (after add2)) 1 0 /\ writes (Station E0 (after add2)) 1 0 [6;6;6;6;6;6;6;6] /\
  under 1100 (concat [frames_of add2; frames_of (other 51 30); frames_of (other 52 40 ++ [OpError 5 1 40])]) = [(1100, 8, [6;6;6;6;6;6;6;6])].
Proof.
  split; [exact (proj2 (proj2 C106_converts_case))|]. split; [|vm_compute; reflexivity].
  apply (writes_intro (Station E0 (after add2)) 1 0 6 [6;6;6;6;6;6;6;6] txc); cbn [st_node]; [exact (proj1 add2_obj)|exact (proj2 (proj2 (proj2 add2_obj)))|exact (proj1 (proj2 add2_obj))|].
  rewrite (proj1 (proj2 (proj2 add2_obj))). intro can. reflexivity.
Qed.
