(** Reception of one synchronous data frame. *)
From Verif Require Import Words WordsFacts ErrModel NodeModel NodeLib NodeInv NodeSpec NodeHw NodeSync NodeImage NodeFirst.

Section Rx.
Variable E : env.

Lemma owner_in s mo pos : owner s mo = Some pos -> In mo (map fst (h_rxtab (n_hw s))).
Proof.
  unfold owner. destruct (find _ _) as [[m p]|] eqn:F; [|discriminate]. intros _. apply find_some in F. destruct F as [F1 F2].
  cbn in F2. apply Nat.eqb_eq in F2. subst. apply (in_map fst) in F1. exact F1.
Qed.
(** a frame in a registered object is only seen by the data branch *)
Lemma step_data mo id dlc data now s s' pos : HwI E s -> owner s mo = Some pos -> is_sync_mo mo s = true ->
  step E (OpFrame mo id dlc data now) s = Ret (tt, s') -> exists e, rx_data_main E pos id dlc data s = Ret (e, s').
Proof.
  intros HI O Sy H. cbn [step] in H. unfold frame_rx in H. mbind H as sy s0 H0. apply gets_inv in H0. destruct H0 as [-> ->].
  mbind H as u s1 H1. rewrite Sy in H1. destruct u. apply on_data_inv in H1. rewrite O in H1. destruct H1 as [e H1].
  destruct HI as (_ & HI & _). destruct (HI mo (owner_in _ _ _ O)) as [_ Nr].
  assert (mo =? MO_PROCESS = false)%nat as E1 by (apply Nat.eqb_neq; intros ->; apply Nr; left; auto).
  assert (mo =? MO_SYS1 = false)%nat as E2 by (apply Nat.eqb_neq; intros ->; apply Nr; right; left; auto).
  assert (SYS2 E && (mo =? MO_SYS2)%nat = false) as E3.
  { destruct (SYS2 E) eqn:S2; auto. cbn. apply Nat.eqb_neq. intros ->. apply Nr. unfold reserved. rewrite S2. cbn. auto. }
  mbind H as u2 s2 H2. rewrite E1 in H2. apply ret_inv in H2. destruct H2 as [_ ->]. rewrite E2, E3 in H. cbn in H.
  apply ret_inv in H. destruct H as [_ ->]. eauto.
Qed.

Lemma rx_nr_ident id : 512 <= id -> id < 262144 -> rx_nr id = (id - 512) / 4 + 1.
Proof.
  intros H1 H2. unfold rx_nr, u16. replace (id + 262144 - 512) with (id - 512 + 65536 * 4) by lia.
  rewrite N.div_add by lia. replace ((id - 512) / 4 + 65536 + 1) with ((id - 512) / 4 + 1 + 1 * 65536) by lia.
  rewrite N.mod_add by lia. apply N.mod_small.
  assert ((id - 512) / 4 < 65535); [|lia]. apply N.div_lt_upper_bound; lia.
Qed.

Lemma wrong_frame pre s mo id dlc data now s' pos :
  CHK E = true -> reached E pre s -> owner s mo = Some pos -> 512 <= id -> id < 1024 ->
  (id - 512) / 4 + 1 <> m_nr (modat s pos) \/ dlc <> r_dlc_s (rxat (modat s pos) (N.to_nat (id mod 4))) ->
  step E (OpFrame mo id dlc data now) s = Ret (tt, s') ->
  s' = s /\ rx_data_main E pos id dlc data s = Ret (if (id - 512) / 4 + 1 =? m_nr (modat s pos) then E_RX_WRONG_DLC else E_RX_WRONG_NR, s).
Proof.
  intros C R O L1 L2 W H. pose proof (HwI_reached _ _ _ R) as HI.
  assert (rx_nr id = (id - 512) / 4 + 1) as Er by (apply rx_nr_ident; lia).
  assert (rx_data_main E pos id dlc data s = Ret (if (id - 512) / 4 + 1 =? m_nr (modat s pos) then E_RX_WRONG_DLC else E_RX_WRONG_NR, s)) as Hr.
  { unfold rx_data_main. rewrite land3, Er, C. cbn zeta. cbn [andb]. unfold bind, gets. 
    destruct (N.eqb_spec ((id - 512) / 4 + 1) (m_nr (modat s pos))) as [e|n]; cbn [negb]; [|reflexivity].
    destruct W as [W|W]; [congruence|]. destruct (N.eqb_spec dlc (r_dlc_s (rxat (modat s pos) (N.to_nat (id mod 4))))); [congruence|]. reflexivity. }
  split; auto. destruct (is_sync_mo mo s) eqn:Sy.
  - destruct (step_data _ _ _ _ _ _ _ _ HI O Sy H) as [e H']. rewrite Hr in H'. injection H' as _ ->. reflexivity.
  - destruct HI as (_ & HI & _). destruct (HI mo (owner_in _ _ _ O)) as [_ Nr].
    assert (mo =? MO_PROCESS = false)%nat as E1 by (apply Nat.eqb_neq; intros ->; apply Nr; left; auto).
    assert (mo =? MO_SYS1 = false)%nat as E2 by (apply Nat.eqb_neq; intros ->; apply Nr; right; left; auto).
    assert (SYS2 E && (mo =? MO_SYS2)%nat = false) as E3.
    { destruct (SYS2 E) eqn:S2; auto. cbn. apply Nat.eqb_neq. intros ->. apply Nr. unfold reserved. rewrite S2. cbn. auto. }
    cbn [step] in H. unfold frame_rx in H. mbind H as sy s0 H0. apply gets_inv in H0. destruct H0 as [-> ->]. rewrite Sy, E1, E2, E3 in H.
    cbn [orb] in H. minv_all. reflexivity.
Qed.

Lemma right_frame pre s mo id dlc data now s' pos obj :
  reached E pre s -> accepted E s (OpFrame mo id dlc data now) pos obj = true ->
  step E (OpFrame mo id dlc data now) s = Ret (tt, s') ->
  let o := rxat (modat s pos) obj in
  exists g app, r_conv_s o = Some g /\ nth_error (n_mem s) (r_addr o) = Some app /\
    nth_error (n_mem s') (r_addr o) = Some (fst (g data app dlc)) /\
    (forall a, a <> r_addr o -> nth_error (n_mem s') a = nth_error (n_mem s) a) /\
    get2 (y_cnt (n_sync s')) pos obj = (get2 (y_cnt (n_sync s)) pos obj + 1) mod 65536 /\
    (forall p j, p <> pos \/ j <> obj -> get2 (y_cnt (n_sync s')) p j = get2 (y_cnt (n_sync s)) p j) /\
    s' = set_n_sync (set_n_mem s (n_mem s')) (set_y_cnt (n_sync s) (y_cnt (n_sync s'))).
Proof.
  intros R A H o. pose proof (HwI_reached _ _ _ R) as HI. pose proof (WF_reached _ _ _ R) as W.
  cbn [accepted] in A. apply andb_prop in A. destruct A as [A Ac]. apply andb_prop in A. destruct A as [A Ao]. apply andb_prop in A. destruct A as [Sy Ap].
  destruct (owner s mo) as [p|] eqn:O; [|discriminate]. apply Nat.eqb_eq in Ap, Ao. subst p.
  destruct (step_data _ _ _ _ _ _ _ _ HI O Sy H) as [e H']. pose proof H' as H''. apply rx_data_main_inv in H'. cbn zeta in H'.
  assert (accepts E s pos id dlc = true) as Acc. { unfold accepts. cbn zeta. rewrite Ao. exact Ac. }
  rewrite Acc, Ao in H'. destruct H' as (g & app & Eg & Ea & _ & ->). exists g, app. fold o in Eg, Ea |- *.
  split; auto. split; auto. cbn [n_mem n_sync upd_sync set_n_sync set_n_mem y_cnt set_y_cnt].
  assert (r_addr o < length (n_mem s))%nat as La by (apply nth_error_Some; congruence).
  assert (forall A (l : list A) i x, (i < length l)%nat -> nth_error (set_nth l i x) i = Some x) as Ns.
  { clear. intros A l. induction l as [|y l IH]; intros [|i] x L; cbn in *; try lia; auto. apply IH. lia. }
  assert (forall A (l : list A) i j x, i <> j -> nth_error (set_nth l i x) j = nth_error l j) as No.
  { clear. intros A l. induction l as [|y l IH]; intros [|i] [|j] x L; cbn in *; auto; try congruence. }
  split; [apply Ns; auto|]. split; [intros a Ha; apply No; auto|].
  assert (pos < MAXM E /\ obj < 4)%nat as [Lp Lo].
  { split; [|subst obj; apply mod4_lt]. destruct (Nat.lt_ge_cases pos (MAXM E)) as [L|L]; auto. exfalso.
    assert (modat s pos = modl0) as Em by (unfold modat; apply nth_overflow; destruct W as [[Wl _] _]; fold (tab_of s) in Wl; lia).
    revert Eg. unfold o. rewrite Em. unfold rxat, modl0, slot0. cbn [m_rx]. rewrite nth_repeat. discriminate. }
  split; [|split].
  - rewrite (get2_set2 E) by (auto; apply W). rewrite !Nat.eqb_refl. reflexivity.
  - intros p j Hn. rewrite (get2_set2 E) by (auto; apply W).
    destruct (Nat.eqb_spec p pos), (Nat.eqb_spec j obj); cbn; auto. destruct Hn; congruence.
  - destruct s; reflexivity.
Qed.

Lemma accepted_ident s mo id dlc data now pos obj : CHK E = true -> 512 <= id -> id < 1024 ->
  accepted E s (OpFrame mo id dlc data now) pos obj = true ->
  id = 512 + 4 * (m_nr (modat s pos) - 1) + N.of_nat obj /\ dlc = r_dlc_s (rxat (modat s pos) obj).
Proof.
  intros C L1 L2 A. cbn [accepted] in A. rewrite C in A. cbn [negb orb] in A.
  repeat (apply andb_prop in A; destruct A as [A ?]). apply andb_prop in H. destruct H as [Hn Hd].
  rewrite rx_nr_ident in Hn by lia. split; [|lia]. apply Nat.eqb_eq in H0. apply N.eqb_eq in Hn.
  pose proof (N.div_mod id 4). pose proof (N.mod_lt id 4). assert (id mod 4 = (id - 512) mod 4) as Em.
  { replace id with (id - 512 + 128 * 4) at 1 by lia. rewrite N.mod_add by lia. reflexivity. }
  pose proof (N.div_mod (id - 512) 4). lia.
Qed.
End Rx.
