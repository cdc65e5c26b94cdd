(** The transmission registers after calm changes of numbers and types. *)
From Verif Require Import Words WordsFacts Bits ErrModel NodeModel NodeLib NodeInv NodeSpec NodeHw NodeCnt NodeSync NodeImage NodeSilent NodePres NodeSysP NodeTx NodeSend NodeNum NodeRx NodeTxP NodeNr NodeCfg NodeCalmSpec.

Section Calm.
Variable E : env.
Hypothesis HE : env_ok E.

(** ** effect of configuring the transmit objects [i .. i+n-1] of a module *)
Record eff (pos : nat) (nr : N) (i n : nat) (s s' : node) : Prop := {
  ef_cfg : n_cfg s' = n_cfg s;
  ef_bits : forall p o, (p < MAXM E)%nat -> (o < NOBJ)%nat -> cyclic s' p o = cyclic s p o || ((p =? pos)%nat && (i <=? o)%nat && (o <? i + n)%nat);
  ef_high : forall k, (NOBJ * MAXM E <= k)%nat -> N.testbit (x_reg (n_tx s')) (N.of_nat k) = N.testbit (x_reg (n_tx s)) (N.of_nat k);
  ef_id : forall p o, get2 (x_id (n_tx s')) p o = if (p =? pos)%nat && (i <=? o)%nat && (o <? i + n)%nat then can_ident BASE_TX nr o else get2 (x_id (n_tx s)) p o;
  ef_dlc : forall p o, get2 (x_dlc (n_tx s')) p o = if (p =? pos)%nat && (i <=? o)%nat && (o <? i + n)%nat then t_dlc (txat (modat s pos) o) else get2 (x_dlc (n_tx s)) p o;
  ef_end : x_end (n_tx s') = if (n =? 0)%nat then x_end (n_tx s) else (NOBJ * pos + i + n - 1)%nat
}.
Lemma eff_0 pos nr i s : eff pos nr i 0 s s.
Proof.
  assert (forall o, (i <=? o)%nat && (o <? i + 0)%nat = false) as Z. { intro o. destruct (Nat.leb_spec i o), (Nat.ltb_spec o (i + 0)); auto; lia. }
  split; auto; intros p o; rewrite <- andb_assoc, Z, andb_false_r; auto. intros. rewrite orb_false_r. reflexivity.
Qed.
Lemma eff_one pos nr i s e s' : WF E s -> (pos < MAXM E)%nat -> (i < NOBJ)%nat -> tx_data_cnfg E pos i nr s = Ret (e, s') -> e = ERR_OK /\ eff pos nr i 1 s s'.
Proof.
  intros W Hp Hi H. unfold tx_data_cnfg in H. destruct (Nat.leb_spec (MAXM E) pos) as [Q1|Q1]; [lia|]. destruct (Nat.leb_spec NOBJ i) as [Q2|Q2]; [lia|].
  mbind H as d s0 H0. apply gets_inv in H0. destruct H0 as [-> ->]. mbind H as u s1 H1. apply modify_inv in H1. apply ret_inv in H. destruct H as [-> ->]. split; [reflexivity|].
  destruct W as (_ & (R1 & R2) & _). subst s1.
  assert (forall o, (i <=? o)%nat && (o <? i + 1)%nat = (o =? i)%nat) as Z. { intro o. destruct (Nat.leb_spec i o), (Nat.ltb_spec o (i + 1)), (Nat.eqb_spec o i); auto; lia. }
  pose proof (pos32 E HE pos (S i) Hp Hi) as P32. split; auto.
  - intros p o Lp Lo. unfold cyclic. cbn [upd_tx set_n_tx n_tx x_reg]. rewrite N.lor_spec, txbit_test by (unfold NOBJ in *; lia). f_equal. rewrite <- andb_assoc, Z.
    destruct (Nat.eqb_spec p pos) as [->|Np], (Nat.eqb_spec o i) as [->|No]; cbn [andb]; apply Nat.eqb_eq || apply Nat.eqb_neq; unfold NOBJ in *; lia.
  - intros k Lk. cbn [upd_tx set_n_tx n_tx x_reg]. rewrite N.lor_spec, txbit_test by (unfold NOBJ in *; lia).
    destruct (Nat.eqb_spec k (NOBJ * pos + i)); [unfold NOBJ in *; lia|apply orb_false_r].
  - intros p o. cbn [upd_tx set_n_tx n_tx x_id]. rewrite (get2_set2 E) by auto. rewrite <- andb_assoc, Z. destruct (p =? pos)%nat, (Nat.eqb_spec o i) as [->|]; reflexivity.
  - intros p o. cbn [upd_tx set_n_tx n_tx x_dlc]. rewrite (get2_set2 E) by auto. rewrite <- andb_assoc, Z. destruct (p =? pos)%nat, (Nat.eqb_spec o i) as [->|]; reflexivity.
  - cbn. lia.
Qed.
Lemma eff_trans pos nr i n s s1 s' : eff pos nr i 1 s s1 -> eff pos nr (S i) n s1 s' -> eff pos nr i (S n) s s'.
Proof.
  intros [C1 B1 H1 I1 D1 E1] [C2 B2 H2 I2 D2 E2].
  assert (forall o, (i <=? o)%nat && (o <? i + S n)%nat = ((i <=? o)%nat && (o <? i + 1)%nat) || ((S i <=? o)%nat && (o <? S i + n)%nat)) as Z.
  { intro o. destruct (Nat.leb_spec i o), (Nat.ltb_spec o (i + S n)), (Nat.ltb_spec o (i + 1)), (Nat.leb_spec (S i) o), (Nat.ltb_spec o (S i + n)); auto; lia. }
  assert (forall p, modat s1 p = modat s p) as M by (intro; unfold modat, tab_of; rewrite C1; reflexivity). split.
  - congruence.
  - intros p o Lp Lo. rewrite B2, B1, <- !andb_assoc, Z by auto. destruct (p =? pos)%nat; cbn [andb]; [rewrite orb_assoc|rewrite !orb_false_r]; reflexivity.
  - intros k Lk. rewrite H2, H1; auto.
  - intros p o. rewrite I2, I1, <- !andb_assoc, Z. destruct (p =? pos)%nat; cbn [andb]; [|reflexivity].
    destruct ((S i <=? o)%nat && (o <? S i + n)%nat); [rewrite orb_true_r; reflexivity|rewrite orb_false_r; reflexivity].
  - intros p o. rewrite D2, D1, M, <- !andb_assoc, Z. destruct (p =? pos)%nat; cbn [andb]; [|reflexivity].
    destruct ((S i <=? o)%nat && (o <? S i + n)%nat); [rewrite orb_true_r; reflexivity|rewrite orb_false_r; reflexivity].
  - rewrite E2, E1. destruct (Nat.eqb_spec n 0); cbn; lia.
Qed.
Lemma wf_cfg1 pos i nr s e s' : tx_data_cnfg E pos i nr s = Ret (e, s') -> WF E s -> WF E s'.
Proof. intros H W. eapply (wf_tx_data_cnfg E); eauto. Qed.
Lemma eff_loop pos nr n : (pos < MAXM E)%nat -> forall i s e s', WF E s -> (i + n <= NOBJ)%nat -> for_err n i (fun i => tx_data_cnfg E pos i nr) s = Ret (e, s') -> e = ERR_OK /\ eff pos nr i n s s' /\ WF E s'.
Proof.
  intro Hp. induction n as [|n IH]; intros i s e s' W Hi H; cbn [for_err] in H.
  - apply ret_inv in H. destruct H as [-> ->]. split; [reflexivity|]. split; [apply eff_0|exact W].
  - mbind H as e1 s1 H1. pose proof (wf_cfg1 _ _ _ _ _ _ H1 W) as W1. apply eff_one in H1; auto; [|lia]. destruct H1 as [-> H1]. change (ERR_OK =? ERR_OK) with true in H. cbv iota in H.
    apply IH in H; auto; [|lia]. destruct H as (-> & H & W'). split; [reflexivity|]. split; [eapply eff_trans; eauto|exact W'].
Qed.
Lemma eff_loop_do pos nr n : (pos < MAXM E)%nat -> forall i s u s', WF E s -> (i + n <= NOBJ)%nat -> for_do n i (fun i => tx_data_cnfg E pos i nr ;;; ret tt) s = Ret (u, s') -> eff pos nr i n s s' /\ WF E s'.
Proof.
  intro Hp. induction n as [|n IH]; intros i s u s' W Hi H; cbn [for_do] in H.
  - apply ret_inv in H. destruct H as [_ ->]. split; [apply eff_0|exact W].
  - mbind H as u1 s1 H1. mbind H1 as e1 s2 H2. apply ret_inv in H1. destruct H1 as [_ ->]. pose proof (wf_cfg1 _ _ _ _ _ _ H2 W) as W1. apply eff_one in H2; auto; [|lia]. destruct H2 as [_ H2].
    apply IH in H; auto; [|lia]. destruct H as (H & W'). split; [eapply eff_trans; eauto|exact W'].
Qed.

(** ** a change of the number *)
Lemma TxI_renumber p new s s1 s2 : WF E s -> TxI E s -> in_use (modat s p) = true -> awake s p = true -> last_sender s p -> 2 <= new <= 255 ->
  s1 = upd_mod p (fun m => set_m_nr m new) s -> eff p new 0 (m_ntx (modat s1 p)) s1 s2 -> TxI E s2.
Proof.
  intros W [[G1 G2 G3 G4] U P Nr] Hu Ha Hl Hn Hs [C B Hh I D En]. pose proof (tab_len E s W) as Lt. assert (p < MAXM E)%nat as Lp by (rewrite <- Lt; apply modat_len_lt, Hu).
  assert (forall q, modat s2 q = if (q =? p)%nat then set_m_nr (modat s p) new else modat s q) as M.
  { intro q. unfold modat at 1, tab_of. rewrite C. fold (tab_of s1). fold (modat s1 q). subst s1. rewrite modat_upd_mod by lia. destruct (Nat.eqb_spec q p) as [->|]; reflexivity. }
  assert (modat s1 p = set_m_nr (modat s p) new) as Mp. { subst s1. rewrite modat_upd_mod by lia. rewrite Nat.eqb_refl. reflexivity. }
  rewrite Mp in *. cbn [set_m_nr m_ntx] in *. assert (forall q, ntx s2 q = ntx s q) as Nt. { intro q. unfold ntx. rewrite M. destruct (Nat.eqb_spec q p) as [->|]; reflexivity. }
  assert (forall q, awake s2 q = awake s q) as Aw. { intro q. unfold awake, silat. rewrite C. subst s1. reflexivity. }
  assert (forall q, in_use (modat s2 q) = in_use (modat s q)) as Us. { intro q. rewrite M. destruct (Nat.eqb_spec q p) as [->|]; reflexivity. }
  assert (forall q, ntx s q <= NOBJ)%nat as N4 by (intro q; apply (modat_ok E s q W)).
  assert (x_reg (n_tx s1) = x_reg (n_tx s) /\ x_id (n_tx s1) = x_id (n_tx s) /\ x_dlc (n_tx s1) = x_dlc (n_tx s) /\ x_end (n_tx s1) = x_end (n_tx s)) as (T1 & T2 & T3 & T4) by (subst s1; auto).
  split; [split| | |].
  - intros q o Lq Lo. rewrite B by auto. unfold cyclic at 1. rewrite T1. fold (cyclic s q o). rewrite G1, Nt, Aw by auto. change (0 + m_ntx (modat s p))%nat with (ntx s p). change (0 <=? o)%nat with true. rewrite andb_true_r.
    destruct (Nat.eqb_spec q p) as [->|]; cbn [andb]; [rewrite Ha; cbn; apply orb_diag|apply orb_false_r].
  - intros k Lk. rewrite Hh, T1 by auto. apply G2, Lk.
  - intros q o Lq Lo. rewrite Nt in Lo. rewrite I, D, M, T2, T3. change (0 + m_ntx (modat s p))%nat with (ntx s p). change (0 <=? o)%nat with true. rewrite andb_true_r. destruct (Nat.eqb_spec q p) as [->|]; cbn [andb].
    + destruct (Nat.ltb_spec o (ntx s p)); [|lia]. split; reflexivity.
    + apply G3; auto.
  - intros q o Lq Lo. rewrite Nt in Lo. rewrite En, T4. fold (ntx s p). destruct (Nat.eqb_spec (ntx s p) 0) as [Z|Z]; [apply G4; auto|].
    destruct (Nat.lt_total q p) as [L|[->|L]].
    + specialize (N4 q). unfold NOBJ in *. lia.
    + lia.
    + exfalso. unfold ntx in Lo. rewrite Hl in Lo by lia. lia.
  - intros q Lq. rewrite Us, Nt, Aw. auto.
  - intros q r Lq Lr. rewrite !Us. eauto.
  - intros q Lq. rewrite M. destruct (Nat.eqb_spec q p) as [->|]; [exact Hn|auto].
Qed.
Lemma pos_awake s p : awake s p = true -> silat s p = AWAKE.
Proof. apply N.eqb_eq. Qed.
Lemma same_tx_awake s s' p : same_tx s s' -> awake s' p = awake s p.
Proof. intro H. apply (same_tx_info _ _ H). Qed.
Lemma TxI_nr_ids type new actual s e s' : WF E s -> TxI E s -> 2 <= new <= 255 -> (forall p, named s type actual = Some p -> may_renumber s p) ->
  change_nr_ids E type new actual s = Ret (e, s') -> TxI E s' /\ (forall p, named s type actual = Some p -> in_use (modat s' p) = true).
Proof.
  intros W I Hn Hm H. pose proof (types_change_nr_ids E _ _ _ _ _ _ H) as [Ty _]. split.
  2: { intros p Hp. destruct (Hm p Hp) as (U & _). unfold in_use in *. replace (m_type (modat s' p)) with (m_type (modat s p)); auto. unfold modat. rewrite <- !(map_nth m_type), Ty. reflexivity. }
  clear Ty. unfold change_nr_ids in H. mbind H as tab s0 H0. apply gets_inv in H0. destruct H0 as [-> ->]. rewrite find_type_nr_named in H. destruct (named s type actual) as [p|]; [|discriminate].
  destruct (Hm p eq_refl) as (Hu & Ha & Hl). clear Hm. pose proof (tab_len E s W) as Lt. assert (p < MAXM E)%nat as Lp by (rewrite <- Lt; apply modat_len_lt, Hu).
  mbind H as u s1 H1. apply modify_inv in H1. mbind H as m s0 H0. apply gets_inv in H0. destruct H0 as [-> ->].
  assert (WF E s1) as W1. { revert W. change (WFR E s s1). subst s1. apply wf_upd_mod. intros m Hm. exact Hm. }
  unfold andthen in H. mbind H as e1 s2 H2. apply eff_loop in H2; auto; [|apply (modat_ok E s1 p W1)]. destruct H2 as (-> & Ef & W2).
  assert (TxI E s2) as I2 by (exact (TxI_renumber p new s s1 s2 W I Hu Ha Hl Hn H1 Ef)). assert (awake s2 p = true) as A2. { rewrite <- Ha. unfold awake, silat. rewrite (ef_cfg _ _ _ _ _ _ Ef). subst s1. reflexivity. }
  clear Ef I W Hl. change (ERR_OK =? ERR_OK) with true in H. cbv iota in H. mbind H as e2 s3 H3.
  assert (WF E s3) as W3. { revert W2. change (WFR E s2 s3). revert H3. apply pres_for_err; [typeclasses eauto|]. intro; simple apply wf_define_obj. }
  assert (same_tx s2 s3) as S3. { revert H3. apply pres_for_err; [typeclasses eauto|]. intro; apply tx_define_obj. }
  pose proof (TxI_same E _ _ S3 I2) as I3. rewrite <- (same_tx_awake _ _ p S3) in A2. clear S3 H3 W2 I2. destruct (e2 =? ERR_OK); [|apply ret_inv in H; destruct H as [_ ->]; exact I3].
  mbind H as tab sd Hd. apply gets_inv in Hd. destruct Hd as [-> ->]. mbind H as n sd Hd. apply gets_inv in Hd. destruct Hd as [-> ->].
  rewrite define_shared_eq in H. unfold andthen in H. mbind H as e3 s4 H4. assert (WF E s4) as W4. { eapply wf_shared; [exact H4|exact W3]. }
  apply tx_shared in H4. pose proof (TxI_same E _ _ H4 I3) as I4. rewrite <- (same_tx_awake _ _ p H4) in A2. destruct (e3 =? ERR_OK); [|apply ret_inv in H; destruct H as [_ ->]; exact I4].
  mbind H as st se He. apply gets_inv in He. destruct He as [-> ->]. rewrite (pos_awake _ _ A2) in H. revert H. apply keeps_silent; auto.
Qed.
Lemma TxI_change_nr p new s e s' : WF E s -> TxI E s -> 2 <= new <= 255 -> entry_of_nr s (m_nr (modat s p)) = Some p -> may_renumber s p -> change_nr E p new s = Ret (e, s') -> TxI E s'.
Proof.
  intros W I Hn He Hm H. apply entry_named in He. unfold change_nr in H. mbind H as v s0 H0. apply gets_inv in H0. destruct H0 as [-> ->]. mbind H as m s0 H0. apply gets_inv in H0. destruct H0 as [-> ->].
  assert (forall q, named s (m_type (modat s p)) (m_nr (modat s p)) = Some q -> may_renumber s q) as Hq by (intros q Q; congruence).
  destruct (k_voter (n_cfg s)) as [v|]; [|eapply TxI_nr_ids in H; eauto; tauto].
  assert (forall st, (st = SILENT \/ st = AWAKE) -> (change_nr_ids E (m_type (modat s p)) new (m_nr (modat s p)) >>> set_silent_awake E p st) s = Ret (e, s') -> TxI E s') as X.
  { intros st Hst Hx. unfold andthen in Hx. mbind Hx as e1 s1 H1. assert (WF E s1) as W1 by (eapply (wf_change_nr_ids E); eauto). eapply TxI_nr_ids in H1; eauto. destruct H1 as [I1 U1]. specialize (U1 p He).
    destruct (e1 =? ERR_OK); [|apply ret_inv in Hx; destruct Hx as [_ ->]; exact I1]. revert Hx. apply keeps_silent; auto. }
  cbv zeta in H. destruct (_ =? 0); [apply (X AWAKE); auto|]. destruct (_ =? 3); [apply (X SILENT); auto|]. apply ret_inv in H. destruct H as [_ ->]. exact I.
Qed.

(** ** a change of the type *)
Definition loop_inv (s0 : node) (j : nat) (s : node) : Prop :=
  n_cfg s = n_cfg s0 /\ WF E s /\
  (forall p o, (p < MAXM E)%nat -> (o < NOBJ)%nat -> cyclic s p o = (p <? j)%nat && (o <? ntx s0 p)%nat) /\
  (forall k, (NOBJ * MAXM E <= k)%nat -> N.testbit (x_reg (n_tx s)) (N.of_nat k) = false) /\
  (forall p o, (p < j)%nat -> (o < ntx s0 p)%nat -> get2 (x_id (n_tx s)) p o = can_ident BASE_TX (m_nr (modat s0 p)) o /\ get2 (x_dlc (n_tx s)) p o = t_dlc (txat (modat s0 p) o)) /\
  (forall p o, (p < j)%nat -> (o < ntx s0 p)%nat -> (NOBJ * p + o <= x_end (n_tx s))%nat).
Lemma type_loop s0 n : (forall p, silat s0 p = AWAKE \/ (MAXM E <= p)%nat) -> forall j s u s', (j + n <= MAXM E)%nat -> loop_inv s0 j s ->
  for_do n j (fun j => st <- gets (fun s => silat s j) ;; if st =? AWAKE then (m <- gets (fun s => modat s j) ;; for_do (m_ntx m) 0 (fun i => tx_data_cnfg E j i (m_nr m) ;;; ret tt)) else ret tt) s = Ret (u, s') ->
  loop_inv s0 (j + n) s'.
Proof.
  intro Aw. induction n as [|n IH]; intros j s u s' Hj I H; cbn [for_do] in H.
  - apply ret_inv in H. destruct H as [_ ->]. rewrite Nat.add_0_r. exact I.
  - mbind H as u1 s1 H1. replace (j + S n)%nat with (S j + n)%nat by lia. apply IH in H; auto; [lia|]. clear IH H.
    destruct I as (C & W & B & Hh & D & En). mbind H1 as st sx Hx. apply gets_inv in Hx. destruct Hx as [-> ->].
    assert (silat s j = AWAKE) as Sj. { unfold silat. rewrite C. fold (silat s0 j). destruct (Aw j); [auto|lia]. } rewrite Sj in H1. change (AWAKE =? AWAKE) with true in H1. cbv iota in H1.
    mbind H1 as m sx Hx. apply gets_inv in Hx. destruct Hx as [-> ->].
    assert (forall q, modat s q = modat s0 q) as M by (intro; unfold modat, tab_of; rewrite C; reflexivity). rewrite !M in H1.
    assert (forall q, ntx s0 q <= NOBJ)%nat as N4 by (intro q; unfold ntx; rewrite <- M; apply (modat_ok E s q W)).
    apply eff_loop_do in H1; auto; [|lia|cbn [plus]; apply N4]. destruct H1 as ([C1 B1 Hh1 I1 D1 En1] & W1). fold (ntx s0 j) in *.
    assert (forall o, (0 <=? o)%nat = true) as Z0 by reflexivity. change (0 + ntx s0 j)%nat with (ntx s0 j) in *.
    split; [congruence|]. split; [exact W1|]. split; [|split; [|split]].
    + intros p o Lp Lo. rewrite B1, B, Z0, andb_true_r by auto. destruct (Nat.eqb_spec p j) as [->|Np]; cbn [andb].
      * destruct (Nat.ltb_spec j j); [lia|]. destruct (Nat.ltb_spec j (S j)); [|lia]. reflexivity.
      * rewrite orb_false_r. f_equal. destruct (Nat.ltb_spec p j), (Nat.ltb_spec p (S j)); auto; lia.
    + intros k Lk. rewrite Hh1; auto.
    + intros p o Lp Lo. rewrite I1, D1, Z0, andb_true_r. destruct (Nat.eqb_spec p j) as [->|Np]; cbn [andb].
      * destruct (Nat.ltb_spec o (ntx s0 j)); [|lia]. rewrite M. auto.
      * apply D; auto. lia.
    + intros p o Lp Lo. rewrite En1. destruct (Nat.eqb_spec (ntx s0 j) 0) as [Z|Z].
      * apply En; auto. destruct (Nat.eq_dec p j) as [->|]; lia.
      * specialize (N4 p). unfold NOBJ in *. destruct (Nat.eq_dec p j) as [->|]; lia.
Qed.
Lemma TxI_change_type p t s e s' : WF E s -> TxI E s -> all_up s -> in_use (modat s p) = true -> (nmod s <= MAXM E)%nat -> change_type E p t s = Ret (e, s') ->
  TxI E s' /\ (forall q, in_use (modat s' q) = in_use (modat s q)).
Proof.
  intros W I [Up Ad] Hu Nm H. pose proof (tab_len E s W) as Lt. assert (p < MAXM E)%nat as Lp by (rewrite <- Lt; apply modat_len_lt, Hu). rewrite Lt in Up, Ad.
  unfold change_type in H. mbind H as c s0 H0. apply gets_inv in H0. destruct H0 as [-> ->]. destruct (nth p (k_chg (n_cfg s)) None) as [c|]; [|apply ret_inv in H; destruct H as [_ ->]; auto].
  destruct (strn_eq 4 _ t); [|apply ret_inv in H; destruct H as [_ ->]; auto].
  mbind H as u0 s0 H0. apply guard_inv in H0. destruct H0 as [Hd ->]. apply andb_prop in Hd. destruct Hd as [Hd Hd2]. apply andb_prop in Hd. destruct Hd as [Hd Hd1]. apply Nat.leb_le in Hd1, Hd2.
  apply desc_nonempty in Hd. destruct Hd as (D1 & D2 & D3 & D4 & D5).
  mbind H as u1 s1 H1. apply modify_inv in H1. mbind H as u2 s2 H2. apply modify_inv in H2. mbind H as n sx Hx. apply gets_inv in Hx. destruct Hx as [-> ->].
  assert (WF E s1) as W1. { revert W. change (WFR E s s1). subst s1. apply wf_upd_mod. intros m Hm. unfold modok, retype. cbn. repeat split; auto. }
  assert (WF E s2) as W2. { revert W1. change (WFR E s1 s2). subst s2. wf_leaf. }
  assert (forall q, modat s2 q = if (q =? p)%nat then retype c (modat s p) else modat s q) as M.
  { intro q. subst s2. change (modat (upd_tx _ s1) q) with (modat s1 q). subst s1. rewrite modat_upd_mod by lia. destruct (Nat.eqb_spec q p) as [->|]; reflexivity. }
  assert (n_cfg s2 = n_cfg s1) as C2 by (subst s2; reflexivity).
  assert (k_silent (n_cfg s1) = k_silent (n_cfg s) /\ nmod s1 = nmod s) as (K1 & K2) by (subst s1; auto).
  assert (forall q, silat s2 q = silat s q) as Sl by (intro q; unfold silat; rewrite C2, K1; reflexivity).
  assert (nmod s2 = nmod s) as Nm2 by (unfold nmod in *; rewrite C2; exact K2).
  assert (in_use (retype c (modat s p)) = true) as Ur by (unfold in_use, retype; cbn; apply negb_true_iff, N.eqb_neq; exact D1).
  assert (forall q, in_use (modat s2 q) = in_use (modat s q)) as Us. { intro q. rewrite M. destruct (Nat.eqb_spec q p) as [->|]; congruence. }
  mbind H as u3 s3 H3. apply (type_loop s2) in H3.
  2: { intro q. rewrite Sl. destruct (Nat.lt_ge_cases q (MAXM E)); [left; apply pos_awake, Up|right]; auto. }
  2: { rewrite Nm2. exact Nm. }
  2: { split; [reflexivity|]. split; [exact W2|]. assert (x_reg (n_tx s2) = 0) as Z by (subst s2; reflexivity). split; [|split; [|split]].
       - intros q o Lq Lo. unfold cyclic. rewrite Z, N.bits_0. destruct (Nat.ltb_spec q 0); [lia|reflexivity].
       - intros k _. rewrite Z. apply N.bits_0.
       - intros q o Lq. lia.
       - intros q o Lq. lia. }
  rewrite Nm2 in H3. cbn [plus] in H3. destruct H3 as (C3 & W3 & B3 & Hh3 & D3' & E3). mbind H as u4 s4 H4. apply ret_inv in H. destruct H as [_ ->].
  assert (same_tx s3 s4) as S4. { revert H4. match goal with |- ?m s3 = _ -> _ => enough (pres same_tx m) as P by (intro H; exact (P _ _ _ H)) end. pres_tac; tx_leaf. }
  assert (forall q, modat s3 q = modat s2 q) as M3 by (intro; unfold modat, tab_of; rewrite C3; reflexivity).
  assert (forall q, awake s3 q = awake s q) as A3 by (intro q; unfold awake, silat; rewrite C3; exact (f_equal (fun x => x =? AWAKE) (Sl q))).
  assert (forall q, ntx s3 q = ntx s2 q) as N3 by (intro q; unfold ntx; rewrite M3; reflexivity).
  assert (forall q, (q < MAXM E)%nat -> (0 < ntx s2 q)%nat -> (q < nmod s)%nat) as Few.
  { intros q Lq Hq. apply Ad; auto. rewrite <- Us. destruct (in_use (modat s2 q)) eqn:X; auto. rewrite Us in X. destruct (ti_unused E s I q Lq X) as [X1 _].
    unfold ntx in Hq. rewrite M in Hq. destruct (Nat.eqb_spec q p) as [->|]; [congruence|]. unfold ntx in X1. lia. }
  split; [|intro q; destruct (same_tx_info _ _ S4) as (_ & _ & -> & _); rewrite M3; apply Us].
  apply (TxI_same E s3); [exact S4|]. destruct I as [_ U P Nr]. split; [split| | |].
  - intros q o Lq Lo. rewrite B3, N3, A3, Up by auto. cbn [andb]. destruct (Nat.ltb_spec o (ntx s2 q)); [|apply andb_false_r]. destruct (Nat.ltb_spec q (nmod s)) as [|L]; [reflexivity|]. specialize (Few q Lq). lia.
  - exact Hh3.
  - intros q o Lq Lo. rewrite N3 in Lo. rewrite M3. apply D3'; auto. apply Few; auto. lia.
  - intros q o Lq Lo. rewrite N3 in Lo. apply E3; auto. apply Few; auto. lia.
  - intros q Lq. rewrite M3, Us, N3, A3. intro Uq. destruct (U q Lq Uq) as [X1 X2]. split; auto. unfold ntx in *. rewrite M. destruct (Nat.eqb_spec q p) as [->|]; [congruence|auto].
  - intros q r Lq Lr. rewrite !M3, !Us. eauto.
  - intros q Lq. rewrite M3, M. destruct (Nat.eqb_spec q p) as [->|]; [|auto]. cbn. auto.
Qed.
Lemma NrI_use s s' : NrI E s -> (forall q, in_use (modat s' q) = in_use (modat s q)) -> (forall q, m_nr (modat s' q) = m_nr (modat s q)) -> NrI E s'.
Proof.
  intros [I1 I2 I3] U Q. split.
  - intro p. rewrite U, Q. apply I1.
  - intros p q. rewrite !U, !Q. apply I2.
  - intros p q. rewrite !U. apply I3.
Qed.

(** ** histories *)
Lemma calm_plain s o : calm E s o -> plain E o \/ (exists mo id dlc data now, o = OpFrame mo id dlc data now /\ sys_mo E mo = true /\ (byte_at data 0 = 32 \/ byte_at data 0 = 49)) \/ (exists type new actual, o = OpSetNr type new actual).
Proof.
  intro C. destruct o; cbn [calm plain] in *; auto.
  - destruct (sys_mo E mo) eqn:Hm; [|left; discriminate]. destruct (C eq_refl) as (C1 & C2 & C3).
    destruct (N.eq_dec (byte_at data 0) 32) as [Q|Q]; [right; left; do 5 eexists; split; [reflexivity|auto]|].
    destruct (N.eq_dec (byte_at data 0) 49) as [Q'|Q']; [right; left; do 5 eexists; split; [reflexivity|auto]|]. left. intros _. auto.
  - right; right. eauto.
Qed.
Lemma report_same e : pres same_tx (report_if e).
Proof. apply pres_report_if; [typeclasses eauto|]. intros; tx_leaf. Qed.
Lemma calm_step pre o s s' : reached E pre s -> TxI E s -> NrI E s -> calm E s o -> step E o s = Ret (tt, s') -> TxI E s' /\ NrI E s'.
Proof.
  intros R I J C H. pose proof (WF_reached E _ _ R) as W. destruct (calm_plain s o C) as [Po|[(mo & id & dlc & data & now & -> & Hm & Hc)|(type & new & actual & ->)]].
  - split; [eapply TxI_step; eauto|eapply NrI_step; eauto].
  - destruct (C Hm) as (C1 & C2 & _). pose proof H as Hs. apply step_sys in H; auto; [|eapply HwI_reached; eauto]. rewrite on_sys_eq in H. mbind H as e s1 H1. apply report_same in H.
    assert (forall x, TxI E s1 -> NrI E x -> x = s' -> TxI E s' /\ NrI E s') as Fin. { intros x X1 X2 ->. split; [eapply TxI_same; eauto|exact X2]. }
    unfold sys_msg_rx in H1. destruct (N.eqb_spec dlc 8) as [->|Nd]; cbn [negb] in H1.
    2: { apply ret_inv in H1. destruct H1 as [_ ->]. split; [eapply TxI_same; eauto|]. apply (NrI_use s); auto; intro q; apply (same_tx_info _ _ H). }
    destruct (id_nr id =? NR_BROADCAST).
    { mbind H1 as n sx Hx. apply gets_inv in Hx. destruct Hx as [-> ->].
      assert (s1 = s) as -> . { destruct (nmod s =? 0)%nat; [apply ret_inv in H1; tauto|]. unfold sys_cmd in H1. mbind H1 as n sx Hx. apply gets_inv in Hx. destruct Hx as [-> ->]. change (b data 0) with (byte_at data 0) in H1. destruct Hc as [Hc|Hc]; rewrite Hc in H1; cbn in H1; apply ret_inv in H1; tauto. }
      split; [eapply TxI_same; eauto|]. apply (NrI_use s); auto; intro q; apply (same_tx_info _ _ H). }
    mbind H1 as tab sx Hx. apply gets_inv in Hx. destruct Hx as [-> ->]. rewrite find_nr_of in H1. destruct (entry_of_nr s (id_nr id)) as [p|] eqn:En.
    2: { apply ret_inv in H1. destruct H1 as [_ ->]. split; [eapply TxI_same; eauto|]. apply (NrI_use s); auto; intro q; apply (same_tx_info _ _ H). }
    pose proof (entry_lt _ _ _ En) as [Lp Qp]. unfold sys_cmd in H1. mbind H1 as n sx Hx. apply gets_inv in Hx. destruct Hx as [-> ->]. change (b data 0) with (byte_at data 0) in H1. change (b data 2) with (byte_at data 2) in H1. destruct Hc as [Hc|Hc].
    + destruct (C1 Hc) as (Fr & Re). specialize (Re p eq_refl). assert (NrI E s') as J'.
      { eapply (NrI_request E); eauto. cbn [nr_request]. rewrite Hm, Hc. reflexivity. }
      rewrite Hc in H1. change (cmd_of 32) with CNumber in H1. cbv iota in H1. destruct (SERIAL E =? serial_of data); [|apply ret_inv in H1; destruct H1 as [_ ->]; split; [eapply TxI_same; eauto|exact J']].
      split; [|exact J']. apply (TxI_same E s1); [exact H|]. rewrite <- Qp in En. eapply TxI_change_nr; eauto. destruct Fr as [Fr _]. lia.
    + destruct (C2 Hc) as (Au & Re). specialize (Re p eq_refl). rewrite Hc in H1. change (cmd_of 49) with CType in H1. cbv iota in H1.
      destruct (SERIAL E =? serial_of data); [|apply ret_inv in H1; destruct H1 as [_ ->]; split; [eapply TxI_same; eauto|apply (NrI_use s); auto; intro q; apply (same_tx_info _ _ H)]].
      mbind H1 as e2 s2 H2. apply ret_inv in H1. destruct H1 as [_ ->]. pose proof (nr_type E _ _ _ _ _ H2) as Sn. apply TxI_change_type in H2; auto; [|eapply nmod_le; eauto].
      destruct H2 as [I2 U2]. destruct (same_tx_info _ _ H) as (_ & _ & Us & Ns). split; [eapply TxI_same; eauto|]. apply (NrI_use s); auto.
      * intro q. rewrite Us. apply U2.
      * intro q. rewrite Ns. apply (same_f_at m_nr _ _ q Sn).
  - destruct C as [Fr Re]. split.
    + cbn [step] in H. unfold ignore in H. mbind H as e s1 H1. apply ret_inv in H. destruct H as [_ ->]. eapply TxI_nr_ids in H1; eauto; [tauto|]. destruct Fr as [Fr _]. lia.
    + eapply (NrI_request E); eauto. reflexivity.
Qed.
Lemma run_with_app P o ops : forall s s' s'', run_with E P ops s s' -> P s' o -> step E o s' = Ret (tt, s'') -> run_with E P (ops ++ [o]) s s''.
Proof. induction ops as [|x ops IH]; intros s s' s'' H Ho Hs; cbn in *; [subst; eauto|]. destruct H as (H & s1 & H1 & H2). split; auto. eauto. Qed.
Lemma calm_run ops : forall pre s s', reached E pre s -> TxI E s -> NrI E s -> run_with E (calm E) ops s s' -> reached E (pre ++ ops) s' /\ TxI E s' /\ NrI E s'.
Proof.
  induction ops as [|o ops IH]; intros pre s s' R I J H; cbn [run_with] in H; [subst; rewrite app_nil_r; auto|]. destruct H as (C & s1 & H1 & H).
  destruct (calm_step _ _ _ _ R I J C H1) as [I1 J1]. replace (pre ++ o :: ops) with ((pre ++ [o]) ++ ops) by (rewrite <- app_assoc; reflexivity). eapply IH; eauto. eapply reached_step; eauto.
Qed.
Lemma calmly_reached ops s : calmly E ops s -> reached E ops s /\ TxI E s /\ NrI E s.
Proof.
  intros (s0 & B & H). assert (reached E [] s0) as R by (exists s0; split; [exact B|reflexivity]). apply (calm_run ops [] s0); auto; [eapply TxI_booted; eauto|eapply NrI_reached; eauto].
Qed.
End Calm.
