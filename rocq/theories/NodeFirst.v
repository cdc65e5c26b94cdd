(** The first status request callback. *)
From Verif Require Import Words WordsFacts ErrModel NodeModel NodeLib NodeInv NodeSpec NodeHw NodeSync NodeImage.

Section First.
Variable E : env.

(** first status request *)
Definition FS (s s' : node) : Prop := same_num is_fstat s s' /\ z_first (n_sys s') = z_first (n_sys s).
#[local] Instance pre_FS : Pre FS.
Proof. split; [intro; split; [apply pre_same_num|auto] | intros a b c [] []; split; [eapply pre_same_num; eauto|congruence]]. Qed.
Ltac fs_leaf := split; [first [apply same_num_none; reflexivity | eapply same_num_one; [|reflexivity]; first [reflexivity | assumption]] | reflexivity].

Lemma FS_check now : pres FS (check_image now).
Proof.
  intros s u s' H. split; [revert H; apply same_num_check; auto|]. revert s u s' H.
  change (pres (fun s s' => z_first (n_sys s') = z_first (n_sys s)) (check_image now)).
  assert (Pre (fun s s' => z_first (n_sys s') = z_first (n_sys s))) as HP by (split; congruence).
  assert (forall n i, pres (fun s s' => z_first (n_sys s') = z_first (n_sys s)) (check_modules n i now)) as Hc.
  { induction n as [|n IH]; intro i; cbn [check_modules]; unfold check_module; repeat (simple apply IH || pres_tac1); reflexivity. }
  unfold check_image, clear_image. repeat (simple apply Hc || pres_tac1); reflexivity.
Qed.
Lemma owner_reserved s mo : HwI E s -> In mo (reserved E) -> owner s mo = None.
Proof.
  intros (_ & H & _) Hm. unfold owner. destruct (find _ _) as [[mo' p]|] eqn:F; [|reflexivity].
  apply find_some in F. destruct F as [F1 F2]. cbn [fst] in F2. apply Nat.eqb_eq in F2. subst.
  apply (in_map fst) in F1. destruct (H _ F1) as [_ Hr]. exfalso. apply Hr. exact Hm.
Qed.
Lemma sys_booted s : booted E s -> z_first (n_sys s) = false.
Proof.
  intros (mem & st & orc & rate & H).
  enough (z_first (n_sys s) = z_first (n_sys (static_node E mem st orc)) \/ z_first (n_sys s) = false) as [X|X] by exact X; auto.
  assert (Pre (fun s s' => z_first (n_sys s) = false -> z_first (n_sys s') = false)) as HP by (split; auto).
  right. assert (pres (fun s s' => z_first (n_sys s) = false -> z_first (n_sys s') = false) (can_init E rate)) as X.
  { unfold can_init, config_init, msg_objs_init, sys_init, sync_init, define_obj, hw_define. pres_tac; auto. }
  eapply X; eauto.
Qed.
Lemma FS_cmd bc pos nr src : cmd_of (b src 0) <> CStatus -> pres FS (sys_cmd E bc pos nr src).
Proof.
  intro Hc. apply (pres_sys_cmd_other E FS (fun e => is_fstat e = false)); intros; try reflexivity; try fs_leaf; auto.
  unfold set_cycle_time. pres_tac; fs_leaf.
Qed.
Lemma FS_rest bc pos n : pres FS ((if bc : bool then for_err n 0 (status_ackn E) else status_ackn E pos) >>>
           (c <- gets err_count;; drain_errors c;;; ret ERR_OK)).
Proof. apply (pres_status_rest E FS (fun e => is_fstat e = false)); intros; try reflexivity; fs_leaf. Qed.

Lemma cmd_status x : cmd_of x = CStatus <-> x = 1.
Proof.
  unfold cmd_of. split; [|intros ->; reflexivity]. intro H.
  repeat match type of H with (if ?c then _ else _) = _ => destruct c eqn:?; try discriminate end. apply N.eqb_eq. assumption.
Qed.

Definition FSx (s s' : node) : Prop := z_first (n_sys s') = true /\ exists new, n_log s' = n_log s ++ new /\
    filter is_fstat new = (if z_first (n_sys s) then [] else [EvFirstStatus (z_cbs (n_sys s))]).

Lemma status_cmd bc pos nr src s e s' : b src 0 = 1 -> sys_cmd E bc pos nr src s = Ret (e, s') -> FSx s s'.
Proof.
  intros Hb H. unfold sys_cmd in H. mbind H as n s0 H0. apply gets_inv in H0. destruct H0 as [-> ->].
  rewrite (proj2 (cmd_status _) Hb) in H. mbind H as z s0 H0. apply gets_inv in H0. destruct H0 as [-> ->].
  mbind H as u s2 H2. apply FS_rest in H. destruct H as [(l & L & F) Z]. destruct (z_first (n_sys s)) eqn:Zf.
  - apply ret_inv in H2. destruct H2 as [_ ->]. split; [congruence|]. exists l. rewrite Zf. auto.
  - mbind H2 as u3 s3 H3. apply modify_inv in H3. unfold emit in H2. apply modify_inv in H2. subst s2 s3. cbn in L, Z.
    split; [congruence|]. exists (EvFirstStatus (z_cbs (n_sys s)) :: l). rewrite L, Zf, <- app_assoc. cbn [filter is_fstat]. rewrite F. auto.
Qed.

Lemma land127 x : N.land x 127 = x mod 128.
Proof. change 127 with (N.ones 7). rewrite N.land_ones. reflexivity. Qed.
Lemma shiftr2 x : N.shiftr x 2 = x / 4.
Proof. rewrite N.shiftr_div_pow2. reflexivity. Qed.

Lemma find_nr_some tab nr i : (exists p, find_nr tab nr i = Some p) <-> existsb (fun m => m_nr m =? nr) tab = true.
Proof.
  revert i. induction tab as [|m tab IH]; intro i; cbn.
  - split; [intros [p H]; discriminate | discriminate].
  - destruct (m_nr m =? nr); cbn; [split; eauto|apply IH].
Qed.

Lemma status_on_sys id dlc data s s' : on_sys E id dlc data s = Ret (tt, s') ->
  if (dlc =? 8) && (b data 0 =? 1) && (if (id / 4) mod 128 =? 0 then negb (nmod s =? 0)%nat else existsb (fun m => m_nr m =? (id / 4) mod 128 + 1) (tab_of s))
  then FSx s s' else FS s s'.
Proof.
  intro H. unfold on_sys in H. mbind H as e s1 H1. assert (FS s1 s') as Hr. { enough (pres FS (report_if e)) as X by (eapply X, H). pres_tac. fs_leaf. }
  assert (forall s0, FSx s0 s1 -> FSx s0 s') as Tr.
  { intros s0 (Z & l & L & F). destruct Hr as [(l' & L' & F') Z']. split; [congruence|]. exists (l ++ l'). rewrite L', L, app_assoc, filter_app, F', app_nil_r. auto. }
  assert (FS s s1 -> FS s s') as Tr2 by (intro; eapply pre_trans; eauto).
  unfold sys_msg_rx in H1. rewrite shiftr2, land127 in H1. destruct (dlc =? 8) eqn:Ed; cbn [negb andb] in *; [|minv_all; exact Hr].
  change NR_BROADCAST with 1 in H1. replace ((id / 4) mod 128 + 1 =? 1) with ((id / 4) mod 128 =? 0) in H1 by lia.
  destruct ((id / 4) mod 128 =? 0) eqn:Eb.
  - mbind H1 as n s0 H0. apply gets_inv in H0. destruct H0 as [-> ->]. destruct (nmod s =? 0)%nat; cbn [negb].
    + rewrite andb_false_r. minv_all. exact Hr.
    + rewrite andb_true_r. destruct (b data 0 =? 1) eqn:E1.
      * apply Tr. eapply status_cmd; eauto. lia.
      * apply Tr2. revert H1. apply FS_cmd. intro X. apply cmd_status in X. lia.
  - mbind H1 as tab s0 H0. apply gets_inv in H0. destruct H0 as [-> ->].
    pose proof (find_nr_some (tab_of s) ((id / 4) mod 128 + 1) 0) as Fi.
    destruct (find_nr (tab_of s) ((id / 4) mod 128 + 1) 0) as [p|] eqn:Ef.
    + rewrite (proj1 Fi) by eauto. rewrite andb_true_r. destruct (b data 0 =? 1) eqn:E1.
      * apply Tr. eapply status_cmd; eauto. lia.
      * apply Tr2. revert H1. apply FS_cmd. intro X. apply cmd_status in X. lia.
    + destruct (existsb _ (tab_of s)); [destruct Fi as [_ Fi]; destruct Fi as [q Fi]; auto; discriminate|]. rewrite andb_false_r. minv_all. exact Hr.
Qed.

Lemma FS_process dlc now : pres FS (on_process E dlc now).
Proof.
  unfold on_process, rx_process_main, process_request_rx.
  repeat (simple apply FS_check || (simple apply (pres_send_process E FS (fun e => is_fstat e = false)); intros; try reflexivity; try fs_leaf)
    || (simple apply (pres_one_error FS (fun e => is_fstat e = false)); intros; try reflexivity; try fs_leaf) || pres_tac1); fs_leaf.
Qed.

Lemma first_status_step o s s' : HwI E s -> step E o s = Ret (tt, s') -> if is_status E s o then FSx s s' else FS s s'.
Proof.
  intros HI H. destruct o as [mo id dlc data now|d nr rxs txs|t n st|t n a|t d rxs txs cb|v|cb|k t n cb|cb|cb|a t r|e p n|now| |t|m|r|a data|t on].
  { cbn [step] in H. unfold frame_rx in H. mbind H as sy s0 H0. apply gets_inv in H0. destruct H0 as [-> ->]. mbind H as u s1 H1.
    cbn [is_status]. destruct ((mo =? MO_SYS1)%nat || SYS2 E && (mo =? MO_SYS2)%nat) eqn:Em; cbn [andb].
    - assert (s1 = s) as ->.
      { destruct (is_sync_mo mo s); [|minv_all; auto]. destruct u. apply on_data_inv in H1. rewrite owner_reserved in H1; auto.
        unfold reserved. apply orb_prop in Em. destruct Em as [Em|Em]; [apply Nat.eqb_eq in Em; subst; cbn; auto|].
        apply andb_prop in Em. destruct Em as [-> Em]. apply Nat.eqb_eq in Em. subst. cbn. auto 6. }
      mbind H as u2 s2 H2. assert (mo =? MO_PROCESS = false)%nat as Hm.
      { unfold MO_SYS1, MO_SYS2, MO_PROCESS in *. destruct (SYS2 E); cbn in Em; lia. }
      rewrite Hm in H2. apply ret_inv in H2. destruct H2 as [_ ->]. apply status_on_sys in H. exact H.
    - mbind H as u2 s2 H2. apply ret_inv in H. destruct H as [_ ->]. eapply pre_trans.
      + destruct (is_sync_mo mo s); [|minv_all; apply pre_refl]. enough (pres FS (on_data E mo id dlc data)) as X by (eapply X, H1). apply (pres_on_data E FS); intros; fs_leaf.
      + destruct (mo =? MO_PROCESS)%nat; [|minv_all; apply pre_refl]. eapply FS_process, H2. }
  all: cbn [is_status]; match type of H with step E ?o _ = _ =>
    refine (pres_other E FS (fun e => is_fstat e = false) _ _ _ _ _ _ _ _ _ _ _ _ o _ _ _ _ H); intros; try exact I; try reflexivity; try fs_leaf end.
  all: unfold set_cycle_time, trigger_period, get_period; pres_tac; fs_leaf.
Qed.

Definition FStatI (s : node) : Prop := num is_fstat (n_log s) = (if z_first (n_sys s) then 1 else 0)%nat.
Lemma FStatI_reached ops s : reached E ops s -> FStatI s.
Proof.
  intros (s0 & B & R). assert (FStatI s0 /\ HwI E s0) as [C0 HI].
  { split; [|apply HwI_booted, B]. destruct (sync_booted _ _ B) as [_ L]. unfold FStatI. rewrite L, (sys_booted _ B). reflexivity. }
  clear B. revert s0 C0 HI R. induction ops as [|o ops IH]; intros s0 C0 HI R.
  - cbn in R. injection R as <-. exact C0.
  - apply run_cons in R. destruct R as (s1 & H1 & R). eapply IH; [| |exact R].
    + pose proof (first_status_step _ _ _ HI H1) as F. unfold FStatI in *. destruct (is_status E s0 o).
      * destruct F as (Z & l & L & F). rewrite Z, L, num_app, C0. unfold num at 1. rewrite F. destruct (z_first (n_sys s0)); reflexivity.
      * destruct F as [(l & L & F) Z]. rewrite Z, L, num_app, C0. unfold num. rewrite F. cbn. lia.
    + eapply HwR_step; eauto.
Qed.
Lemma first_status ops o s s' new : reached E ops s -> step E o s = Ret (tt, s') -> added s s' new ->
  filter is_fstat new = (if is_status E s o && (num is_fstat (n_log s) =? 0)%nat then [EvFirstStatus (z_cbs (n_sys s))] else []).
Proof.
  intros R H A. pose proof (HwI_reached _ _ _ R) as HI. pose proof (FStatI_reached _ _ R) as C. unfold FStatI in C. rewrite C.
  unfold added in A. pose proof (first_status_step _ _ _ HI H) as F. destruct (is_status E s o); cbn [andb].
  - destruct F as (_ & l & L & F). rewrite A in L. apply app_inv_head in L. subst l. rewrite F. destruct (z_first (n_sys s)); reflexivity.
  - destruct F as [(l & L & F) _]. rewrite A in L. apply app_inv_head in L. subst l. exact F.
Qed.
Lemma first_at_most_once ops s : reached E ops s -> (num is_freq (n_log s) <= 1)%nat /\ (num is_fstat (n_log s) <= 1)%nat.
Proof.
  intro R. pose proof (FirstI_reached _ _ _ R) as H1. pose proof (FStatI_reached _ _ R) as H2. unfold FirstI, FStatI in *.
  rewrite H1, H2. destruct (y_first (n_sync s)), (z_first (n_sys s)); lia.
Qed.
End First.
