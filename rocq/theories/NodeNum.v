(** Types and numbers of the table entries: which operations change them; uniqueness of the numbers. *)
From Verif Require Import Words WordsFacts ErrModel NodeModel NodeLib NodeInv NodeSpec NodeHw NodeCnt NodeSilent NodePres NodeTx.

Definition same_f {A} (f : modl -> A) (s s' : node) : Prop := map f (tab_of s') = map f (tab_of s).
#[export] Instance pre_same_f {A} (f : modl -> A) : Pre (same_f f).
Proof. unfold same_f. split; intros; congruence. Qed.
Lemma same_f_at {A} (f : modl -> A) s s' p : same_f f s s' -> f (modat s' p) = f (modat s p).
Proof. intro H. unfold modat. rewrite <- !(map_nth f), H. reflexivity. Qed.
Lemma same_f_upd {A} (f : modl -> A) pos g s : (forall m, f (g m) = f m) -> same_f f s (upd_mod pos g s).
Proof.
  intro Hf. unfold same_f, upd_mod, upd_cfg, tab_of. cbn. rewrite map_set_nth, Hf.
  destruct (Nat.lt_ge_cases pos (length (k_tab (n_cfg s)))) as [L|L].
  - apply set_nth_id. rewrite (nth_error_nth' _ (f modl0)) by (rewrite map_length; exact L). f_equal. rewrite map_nth. reflexivity.
  - apply set_nth_beyond. rewrite map_length. exact L.
Qed.
Definition ident (m : modl) := (m_type m, m_nr m).
Ltac same_leaf := first [ reflexivity | apply same_f_upd; intro; reflexivity ].

(** the configured part of an entry, without message objects and the synchronous part *)
Definition base_rx (o : rxo) : rxo := RxO (r_addr o) (r_dlc o) (r_conv o) 0 None 0.
Definition base_tx (o : txo) : txo := TxO (t_addr o) (t_dlc o) (t_conv o) 0 None.
Definition base (m : modl) : modl := Modl (m_type m) (m_nr m) (m_nrx m) 0 (m_ntx m) 0 (map base_rx (m_rx m)) (map base_tx (m_tx m)).
Lemma map_set_same {A B} (f : A -> B) l i x d : f x = f (nth i l d) -> map f (set_nth l i x) = map f l.
Proof.
  intro H. rewrite map_set_nth. destruct (Nat.lt_ge_cases i (length l)) as [L|L].
  - apply set_nth_id. rewrite (nth_error_nth' _ (f d)) by (rewrite map_length; exact L). rewrite map_nth. congruence.
  - apply set_nth_beyond. rewrite map_length. exact L.
Qed.
Lemma base_upd_rx i g m : (forall o, base_rx (g o) = base_rx o) -> base (upd_rx i g m) = base m.
Proof. intro H. unfold base, upd_rx. cbn. rewrite (map_set_same base_rx _ _ _ rxo0); try apply H; auto. Qed.
Lemma base_upd_tx i g m : (forall o, base_tx (g o) = base_tx o) -> base (upd_txo i g m) = base m.
Proof. intro H. unfold base, upd_txo. cbn. rewrite (map_set_same base_tx _ _ _ txo0); try apply H; auto. Qed.
(** only entry [i] changes *)
Definition only_at (i : nat) (s s' : node) : Prop :=
  (forall p, p <> i -> modat s' p = modat s p) /\ length (tab_of s') = length (tab_of s) /\ nmod s' = nmod s.
#[export] Instance pre_only_at i : Pre (only_at i).
Proof. split; [intro; repeat split | intros a b c (H1 & H2 & H3) (G1 & G2 & G3); repeat split; [intros p Hp; rewrite G1, H1; auto|congruence|congruence]]. Qed.
Lemma only_at_upd i g s : only_at i s (upd_mod i g s).
Proof.
  split; [|split; [apply tab_upd_mod|reflexivity]]. intros p Hp. unfold modat, tab_of, upd_mod. cbn. apply nth_set_nth_other. congruence.
Qed.

Section Num.
Variable E : env.
Section F.
Context {A : Type} (f : modl -> A).
(** [f] does not look at the synchronous part *)
Hypothesis fsync : forall m, f (base m) = f m.
Lemma fsame m m' : base m = base m' -> f m = f m'.
Proof. intro H. rewrite <- (fsync m), <- (fsync m'), H. reflexivity. Qed.
Ltac leaf := first [ reflexivity | apply same_f_upd; intro; apply fsame; first [reflexivity | apply base_upd_rx; reflexivity | apply base_upd_tx; reflexivity] ].
Lemma same_silent p st : pres (same_f f) (set_silent_awake E p st).
Proof.
  unfold set_silent_awake, sync_off, sync_on, tx_data_on, tx_data_off.
  repeat ((simple apply pres_call_rx; [typeclasses eauto| intros; leaf]) || pres_tac1); leaf.
Qed.
Lemma same_define_obj mo id mask dlc rx sv sy : pres (same_f f) (define_obj E mo id mask dlc rx sv sy).
Proof. unfold define_obj, hw_define. pres_tac; leaf. Qed.
Lemma same_shared a b c d : pres (same_f f) (define_shared E a b c d).
Proof.
  unfold define_shared, get_async_ctrl_obj, next_free.
  repeat (simple apply same_define_obj || simple apply same_silent || pres_tac1); leaf.
Qed.
Lemma same_cnfg a b c : pres (same_f f) (tx_data_cnfg E a b c).
Proof. unfold tx_data_cnfg. pres_tac; leaf. Qed.
Lemma same_rest pos d nr : pres (same_f f) (set_module_rest E pos d nr).
Proof.
  unfold set_module_rest, rx_slot, next_free, rx_data_cnfg.
  repeat (simple apply same_shared || simple apply same_cnfg || simple apply same_define_obj || pres_tac1); leaf.
Qed.
Lemma same_baud r : pres (same_f f) (set_baudrate r).
Proof.
  unfold set_baudrate. refine (pres_bind _ _ _ _ _); [pres_tac|intro tab]. generalize ERR_OK.
  induction tab as [|x tab IH]; intro e; cbn [set_baudrate_loop]; [pres_tac|].
  destruct (r =? x); [|apply IH]. unfold hw_set_baudrate. repeat (simple apply IH || pres_tac1); leaf.
Qed.
Lemma same_mode m : pres (same_f f) (set_node_mode m).
Proof. unfold set_node_mode. pres_tac; leaf. Qed.
Lemma same_sys_silent data nr st : pres (same_f f) (sys_silent_awake E data nr st).
Proof. unfold sys_silent_awake. repeat (simple apply same_silent || pres_tac1); leaf. Qed.
End F.

Lemma only_shared a i c d : pres (only_at i) (define_shared E a i c d).
Proof.
  unfold define_shared, get_async_ctrl_obj, next_free, define_obj, hw_define, set_silent_awake, sync_off, sync_on, tx_data_on, tx_data_off.
  repeat ((simple apply pres_call_rx; [typeclasses eauto| intros; first [repeat split; reflexivity|apply only_at_upd]]) || pres_tac1);
    first [repeat split; reflexivity|apply only_at_upd].
Qed.
Lemma only_rest i d nr : pres (only_at i) (set_module_rest E i d nr).
Proof.
  unfold set_module_rest, rx_slot, next_free, rx_data_cnfg, tx_data_cnfg, define_obj, hw_define.
  repeat (simple apply only_shared || pres_tac1); first [repeat split; reflexivity|apply only_at_upd].
Qed.

(** plain operations other than additions change no type or number *)
Lemma plain_ident o : plain E o -> (forall d nr rxs txs, o <> OpAdd d nr rxs txs) -> pres (same_f ident) (step E o).
Proof.
  intros Po Ho. apply (kernel_step E); try typeclasses eauto; try (intros; same_leaf).
  destruct o; cbn [kernel plain] in *; auto; try (intro; same_leaf).
  - intro Hs. apply Po in Hs. destruct Hs as (H1 & H2 & _). unfold sys_kernel. unfold byte_at in *. unfold b.
    unfold cmd_of.
    repeat match goal with |- context [if ?c then _ else _] => let Q := fresh in destruct c eqn:Q end; auto;
    try (apply N.eqb_eq in H3; congruence); repeat split; intros; try (apply same_baud || apply same_mode || apply same_sys_silent); try reflexivity;
    exfalso; repeat match goal with H : (_ =? _) = true |- _ => apply N.eqb_eq in H end; congruence.
  - exfalso. eapply Ho; reflexivity.
  - unfold set_silent_awake_type_nr. repeat ((simple apply same_silent; reflexivity) || pres_tac1).
  - destruct Po.
  - unfold change_type_add. pres_tac; same_leaf.
  - apply same_mode; reflexivity.
  - apply same_baud; reflexivity.
  - destruct Po.
Qed.

(** what an addition does to the table *)
Definition final_nr (s : node) (i : nat) (nr : N) : N :=
  if existsb (fun m => m_nr m =? nr) (firstn i (tab_of s)) then NR_DEF + N.of_nat i else limit_nr i nr.
Lemma limit_def i : limit_nr i (NR_DEF + N.of_nat i) = NR_DEF + N.of_nat i.
Proof. unfold limit_nr. destruct (_ || _); reflexivity. Qed.
Lemma add_module_inv d nr rxs txs s e s' : add_module E d nr rxs txs s = Ret (e, s') ->
  match first_unused (tab_of s) 0 with
  | None => e = E_MAX_MODULES /\ s' = s
  | Some i =>
      desc_ok d = true /\ e = (if existsb (fun m => m_nr m =? nr) (firstn i (tab_of s)) then E_REDECLARED_NR else ERR_OK) /\
      base (modat s' i) = base (new_entry d (final_nr s i nr) rxs txs) /\
      (forall p, p <> i -> modat s' p = modat s p) /\ length (tab_of s') = length (tab_of s) /\ (nmod s <= nmod s' <= S (nmod s))%nat
  end.
Proof.
  intro H. unfold add_module in H. mbind H as tab s0 H0. apply gets_inv in H0. destruct H0 as [-> ->].
  destruct (first_unused (tab_of s) 0) as [i|] eqn:Fu; [|apply ret_inv in H; destruct H as [-> ->]; auto].
  apply first_unused_spec in Fu. rewrite Nat.sub_0_r in Fu. destruct Fu as (Li & Ui & Bi).
  assert (forall nr0 e1 s1, set_module E i d nr0 rxs txs s = Ret (e1, s1) -> desc_ok d = true /\ base (modat s1 i) = base (new_entry d (limit_nr i nr0) rxs txs) /\
      (forall p, p <> i -> modat s1 p = modat s p) /\ length (tab_of s1) = length (tab_of s) /\ (nmod s <= nmod s1 <= S (nmod s))%nat) as Hs.
  { clear H. intros nr0 e1 s1 H. apply set_module_inv in H. destruct H as (Hd & s2 & H & Hs). split; [exact Hd|].
    set (m := new_entry d (limit_nr i nr0) rxs txs) in *. pose proof (only_rest _ _ _ _ _ _ H) as (O1 & O2 & O3).
    apply (same_rest base) in H; [|intro m0; unfold base; cbn; rewrite !map_map; reflexivity]. apply (same_f_at base _ _ i) in H.
    rewrite modat_upd_mod, Nat.eqb_refl in H by lia. rewrite tab_upd_mod in O2. change (nmod (upd_mod i (fun _ => m) s)) with (nmod s) in O3.
    assert (modat s1 i = modat s2 i /\ (forall p, p <> i -> modat s1 p = modat s2 p) /\ length (tab_of s1) = length (tab_of s2) /\ (nmod s2 <= nmod s1 <= S (nmod s2))%nat) as (P1 & P2 & P3 & P4).
    { destruct Hs as [->| ->]; repeat split; auto; unfold nmod; cbn; lia. }
    split; [congruence|]. split; [|split; [congruence|lia]]. intros p Hp. rewrite P2, O1 by exact Hp. rewrite modat_upd_mod by lia.
    apply Nat.eqb_neq in Hp. rewrite Hp. reflexivity. }
  assert (forall e, pres (fun a c : node => n_cfg c = n_cfg a) (report_if e)) as Hr.
  { intro. apply pres_report_if; [split; congruence|]. intros; reflexivity. }
  unfold final_nr. destruct (existsb _ _); mbind H as e1 s1 H1; apply Hs in H1; mbind H as u s2 H2; apply ret_inv in H; destruct H as [-> ->];
    apply Hr in H2; rewrite ?limit_def in H1; unfold modat, tab_of, nmod in *; rewrite H2; tauto.
Qed.

(** ** numbers of configured entries differ *)
Record NrI (s : node) : Prop := {
  nr_cls : forall p, (p < MAXM E)%nat -> in_use (modat s p) = true -> m_nr (modat s p) = NR_DEF + N.of_nat p \/ 2 <= m_nr (modat s p) <= 124;
  nr_diff : forall p q, (p < q)%nat -> (q < MAXM E)%nat -> in_use (modat s p) = true -> in_use (modat s q) = true -> m_nr (modat s p) <> m_nr (modat s q);
  nr_pre : forall p q, (p < q)%nat -> (q < MAXM E)%nat -> in_use (modat s q) = true -> in_use (modat s p) = true
}.
Lemma NrI_same s s' : same_f ident s s' -> NrI s -> NrI s'.
Proof.
  intros H [I1 I2 I3]. assert (forall p, m_nr (modat s' p) = m_nr (modat s p) /\ in_use (modat s' p) = in_use (modat s p)) as Q.
  { intro p. apply (same_f_at ident _ _ p) in H. injection H as H1 H2. unfold in_use. rewrite H1, H2. auto. }
  split.
  - intro p. destruct (Q p) as [-> ->]. apply I1.
  - intros p q. destruct (Q p) as [-> ->], (Q q) as [-> ->]. apply I2.
  - intros p q. destruct (Q p) as [_ ->], (Q q) as [_ ->]. apply I3.
Qed.
Lemma NrI_add d nr rxs txs s e s' : WF E s -> NrI s -> add_module E d nr rxs txs s = Ret (e, s') -> NrI s'.
Proof.
  intros W I H. apply add_module_inv in H. destruct (first_unused (tab_of s) 0) as [i|] eqn:Fu; [|destruct H as [_ ->]; exact I].
  apply first_unused_spec in Fu. rewrite Nat.sub_0_r in Fu. destruct Fu as (Li & Ui & Bi). fold (modat s i) in Ui. destruct H as (Hd & _ & Hb & Ho & _).
  rewrite (tab_len E s W) in Li. destruct I as [I1 I2 I3].
  assert (m_nr (modat s' i) = final_nr s i nr) as Hn by (change (m_nr (base (modat s' i)) = final_nr s i nr); rewrite Hb; reflexivity).
  assert (in_use (modat s' i) = true) as Hu.
  { change (in_use (base (modat s' i)) = true). rewrite Hb. unfold in_use. cbn. unfold desc_ok in Hd. apply andb_prop in Hd. tauto. }
  assert (forall p, (p < MAXM E)%nat -> p <> i -> in_use (modat s' p) = true -> (p < i)%nat /\ in_use (modat s p) = true /\ m_nr (modat s' p) = m_nr (modat s p)) as Hp.
  { intros p Lp Np Up. rewrite (Ho p Np) in *. repeat split; auto. destruct (Nat.lt_ge_cases p i); auto.
    rewrite (I3 i p) in Ui; auto; [discriminate|lia]. }
  assert (forall p, (p < i)%nat -> m_nr (modat s p) <> final_nr s i nr) as Hd2.
  { intros p Lp. specialize (I1 p). assert (in_use (modat s p) = true) as Up by (apply Bi, Lp). specialize (I1 ltac:(lia) Up). unfold final_nr.
    destruct (existsb _ _) eqn:Ex; unfold limit_nr, NR_DEF, NR_MAX, NR_MIN in *; [lia|]. destruct (N.ltb_spec 124 nr), (N.ltb_spec nr 2); cbn [orb]; try lia.
    intro Q. assert (existsb (fun m => m_nr m =? nr) (firstn i (tab_of s)) = true) as T; [|congruence].
    apply existsb_exists. exists (modat s p). split; [|apply N.eqb_eq, Q]. unfold modat.
    rewrite <- (firstn_skipn i (tab_of s)) at 1. rewrite app_nth1 by (rewrite firstn_length, (tab_len E s W); lia). apply nth_In. rewrite firstn_length, (tab_len E s W). lia. }
  split.
  - intros p Lp Up. destruct (Nat.eq_dec p i) as [->|Np].
    + rewrite Hn. unfold final_nr. destruct (existsb _ _); auto. unfold limit_nr, NR_MAX, NR_MIN. destruct (N.ltb_spec 124 nr), (N.ltb_spec nr 2); cbn [orb]; auto; right; lia.
    + destruct (Hp p Lp Np Up) as (_ & U & ->). auto.
  - intros p q Lpq Lq Up Uq. destruct (Nat.eq_dec p i) as [->|Np].
    + destruct (Hp q Lq) as (L & _); auto; lia.
    + destruct (Hp p) as (L & U & ->); auto; [lia|]. destruct (Nat.eq_dec q i) as [->|Nq]; [rewrite Hn; auto|].
      destruct (Hp q Lq Nq Uq) as (_ & U' & ->). auto.
  - intros p q Lpq Lq Uq. destruct (Nat.eq_dec p i) as [->|Np]; auto. rewrite (Ho p Np).
    destruct (Nat.eq_dec q i) as [->|Nq]; [apply Bi; exact Lpq|]. rewrite (Ho q Nq) in Uq. eauto.
Qed.
Lemma NrI_step o s s' : plain E o -> WF E s -> NrI s -> step E o s = Ret (tt, s') -> NrI s'.
Proof.
  intros Po W I H. destruct o; try (eapply NrI_same; [|exact I]; eapply plain_ident; [exact Po|discriminate|exact H]).
  cbn [step] in H. unfold ignore in H. mbind H as e s1 H1. apply ret_inv in H. destruct H as [_ ->]. eapply NrI_add; eauto.
Qed.
Lemma NrI_reached ops s : Forall (plain E) ops -> reached E ops s -> NrI s.
Proof.
  intros F (s0 & B & R). assert (NrI s0) as I0.
  { assert (forall p, in_use (modat s0 p) = false) as Z.
    { destruct B as (mem & st & orc & rate & H). unfold can_init in H. apply andthen_inv in H. destruct H as (s1 & H1 & H).
      assert (same_f ident s1 s0) as Sf.
      { revert H. assert (forall m, pres (same_f ident) m -> forall (e:N) s1 s, m s1 = Ret (e, s) -> same_f ident s1 s) as K by (intros; eauto).
        apply K. unfold define_obj, hw_define, msg_objs_init, sys_init, sync_init. pres_tac; same_leaf. }
      intro p. apply (same_f_at ident _ _ p) in Sf. injection Sf as Sf _. unfold in_use. rewrite Sf. unfold config_init in H1. minv_all.
      unfold modat, tab_of. cbn. rewrite map_map. destruct (Nat.lt_ge_cases p (MAXM E)) as [L|L].
      - rewrite nth_map_seq by exact L. reflexivity.
      - rewrite nth_overflow by (rewrite map_length, seq_length; exact L). reflexivity. }
    split; intros p; intros; try (rewrite Z in *; discriminate). }
  assert (WF E s0) as W0 by (apply (WF_reached E [] s0); exists s0; split; [exact B|reflexivity]).
  clear B. revert s0 I0 W0 R. induction ops as [|o ops IH]; intros s0 I0 W0 R; cbn [run] in R; [apply ret_inv in R; destruct R as [_ ->]; exact I0|].
  inversion F as [|? ? F1 F2]; subst. mbind R as u s1 H1. destruct u. eapply IH; [exact F2| | |exact R]; [eapply NrI_step; eauto|eapply wf_step; eauto].
Qed.
End Num.
