(** Proofs of the process image properties (C01-C04, C09, C10, C21 first process request). *)
From Verif Require Import Words WordsFacts ErrModel NodeModel NodeLib NodeInv NodeSpec NodeHw NodeCnt NodeSync.

Section Image.
Variable E : env.

Lemma reached_step ops o s s' : reached E ops s -> step E o s = Ret (tt, s') -> reached E (ops ++ [o]) s'.
Proof.
  intros (s0 & B & R) H. exists s0. split; auto. eapply run_app_intro; eauto. eapply run_cons_intro; [exact H|reflexivity].
Qed.
Lemma reached_run ops ops' s s' : reached E ops s -> run E ops' s = Ret (tt, s') -> reached E (ops ++ ops') s'.
Proof. intros (s0 & B & R) H. exists s0. split; auto. eapply run_app_intro; eauto. Qed.
Lemma reached_nil s : booted E s -> reached E [] s.
Proof. intro B. exists s. split; auto. Qed.

Lemma owner_zero s : HwI E s -> owner s MO_PROCESS = None.
Proof.
  intros (_ & H & _). unfold owner. destruct (find _ _) as [[mo p]|] eqn:F; [|reflexivity].
  apply find_some in F. destruct F as [F1 F2]. cbn [fst] in F2. apply Nat.eqb_eq in F2. subst.
  apply (in_map fst) in F1. destruct (H _ F1) as [_ Hr]. exfalso. apply Hr. left. reflexivity.
Qed.

Lemma step_request mo id d data t s s' : (mo =? MO_PROCESS)%nat = true -> HwI E s ->
  step E (OpFrame mo id d data t) s = Ret (tt, s') -> on_process E d t s = Ret (tt, s').
Proof.
  intros Hm I H. apply Nat.eqb_eq in Hm. subst mo. cbn [step] in H. unfold frame_rx in H.
  mbind H as sy s0 H0. apply gets_inv in H0. destruct H0 as [-> ->]. mbind H as u s1 H1. destruct u.
  assert (s1 = s) as ->.
  { destruct (is_sync_mo _ _); [|minv_all; auto]. apply on_data_inv in H1. rewrite owner_zero in H1 by auto. exact H1. }
  rewrite Nat.eqb_refl in H. mbind H as u s2 H2. destruct u.
  replace ((MO_PROCESS =? MO_SYS1)%nat || (SYS2 E && (MO_PROCESS =? MO_SYS2)%nat)) with false in H
    by (cbn; rewrite andb_false_r; reflexivity).
  minv_all. exact H2.
Qed.

(** the request counter is 1 exactly while a cycle is open *)
Definition CycI (s : node) : Prop := y_pr_cnt (n_sync s) = if y_pr_flag (n_sync s) then 1 else 0.
Lemma CycI_step o s s' : HwI E s -> CycI s -> step E o s = Ret (tt, s') -> CycI s'.
Proof.
  intros HI C H. destruct (is_request o) eqn:R.
  - destruct o; try discriminate. cbn [is_request] in R. apply step_request in H; auto.
    apply on_process_inv in H. cbn zeta in H. destruct H as (_ & F & _ & _ & _ & P & _). unfold CycI in *. rewrite F, P.
    rewrite C. destruct (y_pr_flag (n_sync s)); reflexivity.
  - apply step_nonreq in H; auto. destruct H as [[_ Q] _]. unfold CycI in *. unfold cyc_obs in Q. injection Q as -> -> _ _ _ _. exact C.
Qed.

Lemma sync_booted s : booted E s -> n_sync s = set_y_cbr (set_y_cbn (set_y_cbv (set_y_cyc (set_y_per (static_sync E) (PMAX E)) (PMAX E))
      (repeat None (MAXM E))) (repeat None (MAXM E))) (repeat None (MAXM E)) /\ n_log s = [].
Proof.
  intros (mem & st & orc & rate & H). unfold can_init in H.
  assert (forall m, pres (fun s s' => n_sync s' = n_sync s /\ n_log s' = n_log s) m -> forall (e:N) s1 s, m s1 = Ret (e, s) ->
     n_sync s = n_sync s1 /\ n_log s = n_log s1) as K by (intros; eauto).
  assert (Pre (fun s s' => n_sync s' = n_sync s /\ n_log s' = n_log s)) as HP.
  { split; [auto|]. intros a b c [] []. split; congruence. }
  repeat match type of H with
  | (_ >>> sync_init E) _ = _ => fail 1
  | (_ >>> _) _ = _ => let s1 := fresh "s" in let H1 := fresh "H" in apply andthen_inv in H; destruct H as (s1 & H1 & H)
  end.
  apply andthen_inv in H. destruct H as (s9 & H9 & H).
  unfold sync_init in H. mbind H as u s10 H10. apply modify_inv in H10. apply ret_inv in H. destruct H as [_ ->]. subst s10.
  assert (n_sync s9 = static_sync E /\ n_log s9 = []) as [Y9 L9].
  { repeat match goal with Hm : ?m _ = Ret (_, _) |- _ => apply K in Hm;
      [destruct Hm as [? ?] | unfold sys_init, config_init, msg_objs_init, define_obj, hw_define; pres_tac; split; reflexivity] end.
    cbn in *. split; congruence. }
  cbn. rewrite Y9, L9. split; reflexivity.
Qed.

Lemma CycI_reached ops s : reached E ops s -> CycI s.
Proof.
  intros (s0 & B & R). assert (CycI s0 /\ HwI E s0) as [C0 HI].
  { split; [|apply HwI_booted, B]. destruct (sync_booted _ B) as [Y _]. unfold CycI. rewrite Y. reflexivity. }
  clear B. revert s0 C0 HI R. induction ops as [|o ops IH]; intros s0 C0 HI R.
  - cbn in R. injection R as <-. exact C0.
  - apply run_cons in R. destruct R as (s1 & H1 & R). eapply IH; [| |exact R].
    + eapply CycI_step; eauto.
    + eapply HwR_step; eauto.
Qed.

(** after at least one request a cycle is open *)
Lemma flag_run ops s s' : HwI E s -> run E ops s = Ret (tt, s') ->
  y_pr_flag (n_sync s) = true \/ existsb is_request ops = true -> y_pr_flag (n_sync s') = true.
Proof.
  revert s. induction ops as [|o ops IH]; intros s HI R H.
  - cbn in R. injection R as <-. destruct H as [H|H]; [exact H|discriminate].
  - apply run_cons in R. destruct R as (s1 & H1 & R). assert (HwI E s1) as HI1 by (eapply HwR_step; eauto).
    apply (IH _ HI1 R). cbn [existsb] in H. destruct (is_request o) eqn:Ro.
    + left. destruct o; try discriminate. cbn in Ro. apply step_request in H1; auto. apply on_process_inv in H1. cbn zeta in H1. tauto.
    + cbn in H. destruct H as [H|H]; [left|right; exact H]. apply step_nonreq in H1; auto. destruct H1 as [[_ Q] _].
      unfold cyc_obs in Q. injection Q as -> _ _ _ _ _. exact H.
Qed.
Lemma flag_reached ops s : reached E ops s -> existsb is_request ops = true -> y_pr_flag (n_sync s) = true.
Proof. intros (s0 & B & R) H. eapply flag_run; [apply HwI_booted, B | exact R | auto]. Qed.

Lemma receptions_le ops s pos obj : (receptions E s ops pos obj <= length ops)%nat.
Proof.
  revert s. induction ops as [|o ops IH]; intro s; cbn [receptions length]; [lia|].
  specialize (IH (match step E o s with Ret (_, s') => s' | _ => s end)).
  destruct (step E o s) as [[u s1]| |]; destruct (accepted _ _ _ _ _); lia.
Qed.

Lemma step_quiet_added s s' new : evq s s' -> added s s' new -> forallb quiet_ev new = true.
Proof. intros (l & H & Q) A. unfold added in A. rewrite H in A. apply app_inv_head in A. subst. exact Q. Qed.

Lemma verdicts_map s now l : verdicts (map (ev_of s now) l) = map (fun p => (p, module_valid s p)) l.
Proof. induction l as [|p l IH]; cbn; auto. rewrite IH. reflexivity. Qed.
Lemma hooks_map s now l : image_hooks (map (ev_of s now) l) = 0%nat.
Proof. induction l as [|p l IH]; cbn; auto. Qed.

(** a request in an open cycle *)
Lemma request_events d t s s' new : HwI E s -> CycI s -> step E (request d t) s = Ret (tt, s') -> added s s' new ->
  let go := y_pr_flag (n_sync s) && (y_pr_dlc (n_sync s) <=? 1) in
  verdicts new = (if go then map (fun p => (p, module_valid s p)) (seq 0 (nmod s)) else []) /\
  image_hooks new = (if go && forallb (module_valid s) (seq 0 (nmod s)) then 1 else 0)%nat.
Proof.
  intros HI C H A go. apply step_request in H; auto. apply on_process_inv in H. cbn zeta in H.
  destruct H as (_ & _ & _ & _ & _ & _ & _ & _ & _ & q1 & q2 & Q1 & Q2 & L). unfold added in A. rewrite L in A. apply app_inv_head in A.
  subst new.
  assert (evaluated s = go) as ->.
  { unfold evaluated, go. rewrite C. destruct (y_pr_flag (n_sync s)); cbn; [rewrite andb_true_r; reflexivity | reflexivity]. }
  rewrite !verdicts_app, !image_hooks_app, (quiet_verdicts q1), (quiet_verdicts q2), (quiet_hooks q1), (quiet_hooks q2) by auto.
  destruct go; cbn [andb]; [|split; reflexivity].
  rewrite verdicts_app, image_hooks_app, verdicts_map, hooks_map. destruct (forallb (module_valid s) (seq 0 (nmod s))); cbn; rewrite ?app_nil_r; split; reflexivity.
Qed.

Lemma cleared_after d t s s' pos obj : HwI E s -> WF E s -> y_pr_flag (n_sync s) = true ->
  step E (request d t) s = Ret (tt, s') -> (pos < MAXM E)%nat -> (obj < listening s pos)%nat ->
  get2 (y_cnt (n_sync s')) pos obj = 0.
Proof.
  intros HI W F H Lp Lo. apply step_request in H; auto. apply on_process_inv in H. cbn zeta in H.
  destruct H as (_ & _ & _ & _ & _ & _ & Cn & _). rewrite F in Cn. rewrite Cn, (get2_clear E) by auto.
  apply Nat.ltb_lt in Lo. rewrite Lo. reflexivity.
Qed.

Lemma image_verdict pre d1 t1 mid d2 t2 s0 s1 s2 s3 new :
  reached E pre s0 -> existsb is_request pre = true -> d1 <= 1 ->
  step E (request d1 t1) s0 = Ret (tt, s1) -> no_requests mid -> run E mid s1 = Ret (tt, s2) ->
  step E (request d2 t2) s2 = Ret (tt, s3) -> added s2 s3 new ->
  map fst (verdicts new) = seq 0 (nmod s2) /\
  forall pos v, In (pos, v) (verdicts new) -> (listening s2 pos <= listening s0 pos)%nat ->
    (v = true <-> forall obj, (obj < listening s2 pos)%nat -> N.of_nat (receptions E s1 mid pos obj) mod 65536 = 1).
Proof.
  intros R0 X D1 H1 Nr Hm H2 A.
  pose proof (reached_step _ _ _ _ R0 H1) as R1. pose proof (reached_run _ _ _ _ R1 Hm) as R2.
  pose proof (HwI_reached _ _ _ R0) as I0. pose proof (WF_reached _ _ _ R0) as W0.
  pose proof (WF_reached _ _ _ R1) as W1. pose proof (HwI_reached _ _ _ R2) as I2. pose proof (CycI_reached _ _ R2) as C2.
  destruct (run_nonreq _ _ _ _ Nr W1 Hm) as [[_ Q] Cn].
  assert (y_pr_flag (n_sync s2) = true /\ y_pr_dlc (n_sync s2) = d1) as [F2 D2].
  { apply step_request in H1; auto. apply on_process_inv in H1. cbn zeta in H1. destruct H1 as (_ & F1 & D & _).
    unfold cyc_obs in Q. injection Q as -> _ -> _ _ _. auto. }
  destruct (request_events _ _ _ _ _ I2 C2 H2 A) as [V _]. rewrite F2, D2 in V.
  replace (d1 <=? 1) with true in V by lia. cbn [andb] in V. rewrite V. split.
  { rewrite map_map. cbn [fst]. apply map_id. }
  intros pos v Hin Hl. apply in_map_iff in Hin. destruct Hin as (p & Ep & Hp). injection Ep as -> <-. apply in_seq in Hp.
  assert (pos < MAXM E)%nat as Lp. { pose proof (nmod_le _ _ _ R2). lia. }
  unfold module_valid. rewrite forallb_forall. fold (listening s2 pos).
  assert (forall obj, (obj < listening s2 pos)%nat ->
     (get2 (y_cnt (n_sync s2)) pos obj =? 1) = true <-> N.of_nat (receptions E s1 mid pos obj) mod 65536 = 1) as Eq.
  { intros obj Lo. assert (get2 (y_cnt (n_sync s1)) pos obj = 0) as Z.
    { apply (cleared_after d1 t1 s0 s1 pos obj); auto; [eapply flag_reached; eauto | lia]. }
    rewrite Cn by (auto; rewrite Z; lia). rewrite Z, N.add_0_l, N.eqb_eq. reflexivity. }
  split.
  - intros H obj Lo. apply Eq; auto. apply H. apply in_seq. lia.
  - intros H obj Ho. apply in_seq in Ho. apply Eq; [lia|]. apply H. lia.
Qed.

Lemma image_verdict_short pre d1 t1 mid d2 t2 s0 s1 s2 s3 new :
  reached E pre s0 -> existsb is_request pre = true -> d1 <= 1 ->
  step E (request d1 t1) s0 = Ret (tt, s1) -> no_requests mid -> run E mid s1 = Ret (tt, s2) ->
  step E (request d2 t2) s2 = Ret (tt, s3) -> added s2 s3 new -> N.of_nat (length mid) <= 65536 ->
  map fst (verdicts new) = seq 0 (nmod s2) /\
  forall pos v, In (pos, v) (verdicts new) -> (listening s2 pos <= listening s0 pos)%nat ->
    (v = true <-> forall obj, (obj < listening s2 pos)%nat -> receptions E s1 mid pos obj = 1%nat).
Proof.
  intros R0 X D1 H1 Nr Hm H2 A Lm. destruct (image_verdict _ _ _ _ _ _ _ _ _ _ _ R0 X D1 H1 Nr Hm H2 A) as [V W].
  split; auto. intros pos v Hin Hl. rewrite (W _ _ Hin Hl).
  assert (forall obj, N.of_nat (receptions E s1 mid pos obj) mod 65536 = 1 <-> receptions E s1 mid pos obj = 1%nat) as Eq.
  { intro obj. pose proof (receptions_le mid s1 pos obj) as Lr.
    assert (N.of_nat (receptions E s1 mid pos obj) <= 65536) as Lr' by lia. clear -Lr'.
    destruct (N.eq_dec (N.of_nat (receptions E s1 mid pos obj)) 65536) as [e|n].
    - rewrite e. change (65536 mod 65536) with 0. lia.
    - rewrite N.mod_small by lia. lia. }
  split; intros H obj Lo; apply Eq, H; auto.
Qed.

(** the callback called and its time *)
Lemma verdict_call d t s s' new pos v cb now : HwI E s -> step E (request d t) s = Ret (tt, s') -> added s s' new ->
  In (EvVerdict pos v cb now) new -> now = t /\ cb = nth pos (if v then y_cbv (n_sync s) else y_cbn (n_sync s)) None.
Proof.
  intros HI H A Hin. apply step_request in H; auto. apply on_process_inv in H. cbn zeta in H.
  destruct H as (_ & _ & _ & _ & _ & _ & _ & _ & _ & q1 & q2 & Q1 & Q2 & L). unfold added in A. rewrite L in A. apply app_inv_head in A.
  subst new. assert (forall q, forallb quiet_ev q = true -> In (EvVerdict pos v cb now) q -> False) as Nq.
  { intros q Hq Hi. rewrite forallb_forall in Hq. apply Hq in Hi. discriminate. }
  apply in_app_or in Hin. destruct Hin as [Hin|Hin]; [exfalso; eauto|].
  apply in_app_or in Hin. destruct Hin as [Hin|Hin]; [|exfalso; eauto].
  destruct (evaluated s); [|destruct Hin]. apply in_app_or in Hin. destruct Hin as [Hin|Hin].
  - apply in_map_iff in Hin. destruct Hin as (p & Ep & _). unfold ev_of in Ep. injection Ep as <- <- <- <-. auto.
  - destruct (forallb (module_valid s) (seq 0 (nmod s))); cbn in Hin; [destruct Hin as [Hin|[]]; discriminate | destruct Hin].
Qed.

Lemma long_request pre d1 t1 mid d2 t2 s0 s1 s2 s3 new :
  reached E pre s0 -> 1 < d1 ->
  step E (request d1 t1) s0 = Ret (tt, s1) -> no_requests mid -> run E mid s1 = Ret (tt, s2) ->
  step E (request d2 t2) s2 = Ret (tt, s3) -> added s2 s3 new ->
  verdicts new = [] /\ image_hooks new = 0%nat /\
  y_tv (n_sync s3) = y_tv (n_sync s2) /\ y_tvm (n_sync s3) = y_tvm (n_sync s2).
Proof.
  intros R0 D1 H1 Nr Hm H2 A.
  pose proof (reached_step _ _ _ _ R0 H1) as R1. pose proof (reached_run _ _ _ _ R1 Hm) as R2.
  pose proof (HwI_reached _ _ _ R0) as I0. 
  pose proof (WF_reached _ _ _ R1) as W1. pose proof (HwI_reached _ _ _ R2) as I2. pose proof (CycI_reached _ _ R2) as C2.
  destruct (run_nonreq _ _ _ _ Nr W1 Hm) as [[_ Q] _].
  assert (y_pr_dlc (n_sync s2) = d1) as D2.
  { apply step_request in H1; auto. apply on_process_inv in H1. cbn zeta in H1. destruct H1 as (_ & F1 & D & _).
    unfold cyc_obs in Q. injection Q as _ _ -> _ _ _. auto. }
  destruct (request_events _ _ _ _ _ I2 C2 H2 A) as [V I]. rewrite D2 in V, I.
  replace (d1 <=? 1) with false in V, I by lia. rewrite andb_false_r in V, I. cbn [andb] in I.
  split; auto. split; auto. apply step_request in H2; auto. apply on_process_inv in H2. cbn zeta in H2.
  assert (evaluated s2 = false) as Ev.
  { unfold evaluated. rewrite D2. replace (d1 <=? 1) with false by lia. rewrite andb_false_r. reflexivity. }
  rewrite Ev in H2. cbn [andb] in H2. tauto.
Qed.

(** *** valid timestamps *)
Lemma fold_tvm_nth s now l tvm pos : length tvm = MAXM E -> (pos < MAXM E)%nat ->
  nth pos (fold_left (tvm_of s now) l tvm) 0 = last_valid pos (map (ev_of s now) l) (nth pos tvm 0).
Proof.
  revert tvm. induction l as [|p l IH]; intros tvm Ht Lp; cbn [fold_left map last_valid]; auto.
  rewrite IH; auto; [|unfold tvm_of; destruct (module_valid s p); rewrite ?set_nth_length; exact Ht].
  unfold tvm_of at 1. unfold ev_of at 2. destruct (module_valid s p); cbn [last_valid]; auto.
  destruct (Nat.eqb_spec p pos) as [->|Np]; [rewrite nth_set_nth_same by lia | rewrite nth_set_nth_other by auto]; reflexivity.
Qed.

Definition TimeI (s : node) : Prop :=
  y_tv (n_sync s) = last_image (n_log s) 0 /\
  forall pos, (pos < MAXM E)%nat -> nth pos (y_tvm (n_sync s)) 0 = last_valid pos (n_log s) 0.

Lemma last_image_map s now l acc : last_image (map (ev_of s now) l) acc = acc.
Proof. induction l as [|p l IH]; cbn; auto. Qed.

Lemma TimeI_step o s s' : HwI E s -> WF E s -> TimeI s -> step E o s = Ret (tt, s') -> TimeI s'.
Proof.
  intros HI W [T1 T2] H. destruct (is_request o) eqn:R.
  - destruct o; try discriminate. cbn [is_request] in R. apply step_request in H; auto.
    apply on_process_inv in H. cbn zeta in H. destruct H as (_ & _ & _ & _ & _ & _ & _ & Vm & V & q1 & q2 & Q1 & Q2 & L).
    split.
    + rewrite V, L, !last_image_app, (quiet_last_image q1), (quiet_last_image q2) by auto. rewrite <- T1.
      destruct (evaluated s); cbn [andb]; [|reflexivity]. rewrite last_image_app, last_image_map. destruct (forallb (module_valid s) (seq 0 (nmod s))); reflexivity.
    + intros pos Lp. rewrite Vm, L, !last_valid_app, (quiet_last_valid pos q1), (quiet_last_valid pos q2) by auto. rewrite <- T2 by auto.
      destruct (evaluated s); [|reflexivity]. rewrite last_valid_app, fold_tvm_nth; auto; [|apply W].
      destruct (forallb (module_valid s) (seq 0 (nmod s))); reflexivity.
  - apply step_nonreq in H; auto. destruct H as [[(l & L & Ql) Q] _]. unfold cyc_obs in Q. injection Q as _ _ _ _ V Vm. split.
    + rewrite V, L, last_image_app, (quiet_last_image l) by auto. exact T1.
    + intros pos Lp. rewrite Vm, L, last_valid_app, (quiet_last_valid pos l) by auto. auto.
Qed.

Lemma TimeI_reached ops s : reached E ops s -> TimeI s.
Proof.
  intros (s0 & B & R). assert (TimeI s0) as C0.
  { destruct (sync_booted _ B) as [Y L]. unfold TimeI. rewrite Y, L. cbn. split; [reflexivity|]. intros. apply nth_repeat. }
  assert (WF E s0 /\ HwI E s0) as [W0 I0].
  { split; [eapply WF_reached, reached_nil, B | apply HwI_booted, B]. }
  clear B. revert s0 C0 W0 I0 R. induction ops as [|o ops IH]; intros s0 C0 W0 I0 R.
  - cbn in R. injection R as <-. exact C0.
  - apply run_cons in R. destruct R as (s1 & H1 & R). eapply IH; [| | |exact R].
    + eapply TimeI_step; eauto.
    + eapply wf_step; eauto.
    + eapply HwR_step; eauto.
Qed.

(** the whole-image hook runs at a request iff it evaluates and every verdict is positive *)
Lemma hook_iff pre d t s s' new : reached E pre s -> step E (request d t) s = Ret (tt, s') -> added s s' new ->
  (image_hooks new <= 1)%nat /\
  (image_hooks new = 1%nat <-> (map fst (verdicts new) = seq 0 (nmod s) /\ (nmod s = 0%nat -> y_pr_flag (n_sync s) && (y_pr_dlc (n_sync s) <=? 1) = true) /\
                                forall pos v, In (pos, v) (verdicts new) -> v = true)).
Proof.
  intros R H A. pose proof (HwI_reached _ _ _ R) as I. pose proof (CycI_reached _ _ R) as C.
  destruct (request_events _ _ _ _ _ I C H A) as [V Im]. rewrite V, Im.
  destruct (y_pr_flag (n_sync s) && (y_pr_dlc (n_sync s) <=? 1)) eqn:G; cbn [andb].
  - rewrite map_map. cbn [fst]. rewrite map_id. destruct (forallb (module_valid s) (seq 0 (nmod s))) eqn:F; split; try lia; split; intro X; try lia.
    + repeat split; auto. intros pos v Hin. apply in_map_iff in Hin. destruct Hin as (p & Ep & Hp). injection Ep as -> <-.
      rewrite forallb_forall in F. apply F, Hp.
    + exfalso. destruct X as (_ & _ & X). assert (forallb (module_valid s) (seq 0 (nmod s)) = true); [|congruence].
      apply forallb_forall. intros p Hp. apply (X p). apply in_map_iff. exists p. auto.
  - split; [lia|]. split; [lia|]. intros (X & Y & _). cbn in X. destruct (nmod s) as [|n]; [|discriminate]. specialize (Y eq_refl). discriminate.
Qed.

(** *** period and cycle time *)
Definition PerI (s : node) : Prop := y_cyc (n_sync s) <= PMAX E.
Definition PerR (s s' : node) : Prop := PerI s -> PerI s'.
#[local] Instance pre_PerR : Pre PerR := pre_imp PerI.

Lemma check_image_cyc now : pres (fun s s' => y_cyc (n_sync s') = y_cyc (n_sync s)) (check_image now).
Proof.
  intros s u s' H. destruct u. apply check_image_inv in H. cbn zeta in H. destruct H as (_ & _ & _ & (img & Y) & _). rewrite Y.
  destruct (y_pr_flag (n_sync s)), (evaluated s); try reflexivity; destruct (forallb (module_valid s) (seq 0 (nmod s))); reflexivity.
Qed.
Lemma PerI_step o : pres PerR (step E o).
Proof.
  apply (pres_step E PerR (fun _ => True)); intros; try exact I; try (exact (fun h => h)).
  - unfold set_cycle_time. destruct (t <=? PMAX E) eqn:L; pres_tac; intros _; unfold PerI; cbn; lia.
  - pres_tac; exact (fun h => h).
  - intros s u s' H. apply check_image_cyc in H. unfold PerR, PerI. rewrite H. auto.
  - unfold process_request_rx. pres_tac; exact (fun h => h).
  - unfold rx_process_main. pres_tac; exact (fun h => h).
Qed.
Lemma PerI_reached ops s : reached E ops s -> PerI s.
Proof.
  intros (s0 & B & R). eapply (pres_run E PerR PerI_step); [exact R|]. destruct (sync_booted _ B) as [Y _].
  unfold PerI. rewrite Y. cbn. lia.
Qed.

Definition per (s : node) : N := N.min (y_per (n_sync s)) (PMAX E).
Lemma per_other o s s' : is_request o = false -> is_trigger o = false -> step E o s = Ret (tt, s') -> per s' = per s.
Proof.
  assert (Pre (fun s s' => per s' = per s)) as HP by typeclasses eauto.
  assert (forall a b c, pres (fun s s' => per s' = per s) (on_sys E a b c)) as Hsys.
  { intros. apply (pres_on_sys E (fun s s' => per s' = per s) (fun _ => True)); intros; auto; [unfold set_cycle_time|]; pres_tac; reflexivity. }
  intros H1 H2 H. destruct o as [mo id dlc data now|d nr rxs txs|t n st|t n a|t d rxs txs cb|v|cb|k t n cb|cb|cb|a t r|e p n|now| |t|m|r|a data|t on];
    try discriminate.
  { cbn [is_request] in H1. cbn [step] in H. unfold frame_rx in H.
    mbind H as sy s0 H0. apply gets_inv in H0. destruct H0 as [-> ->]. mbind H as u s1 H3.
    rewrite H1 in H. mbind H as u2 s2 H4. apply ret_inv in H4. destruct H4 as [_ ->].
    assert (per s' = per s1) as ->. { destruct (_ || _); [eapply Hsys, H | minv_all; auto]. }
    destruct (is_sync_mo mo s); [|minv_all; auto]. destruct u. apply on_data_inv in H3. destruct (owner s mo); [|subst; auto].
    destruct H3 as [e H3]. apply rx_data_main_inv in H3. cbn zeta in H3. destruct (accepts E s n id dlc).
    + destruct H3 as (g & app & _ & _ & _ & ->). reflexivity.
    + destruct H3 as [-> _]. reflexivity. }
  12: { clear Hsys. cbn [step] in H. unfold ignore, get_period in H. mbind H as p s1 H3. apply ret_inv in H. destruct H as [_ ->].
    mbind H3 as q s2 H4. apply gets_inv in H4. destruct H4 as [-> ->]. destruct (PMAX E <? y_per (n_sync s)) eqn:L; minv_all; auto.
    unfold per. cbn. lia. }
  all: match goal with Hs : step E ?o _ = _ |- _ =>
    refine (pres_other E (fun s s' => per s' = per s) (fun _ => True) _ _ _ _ _ _ _ _ _ _ _ _ o _ _ _ _ Hs); intros; try exact I; try reflexivity end.
  all: unfold set_cycle_time; pres_tac; reflexivity.
Qed.
Lemma per_run ops s s' : forallb (fun o => negb (is_request o) && negb (is_trigger o)) ops = true -> run E ops s = Ret (tt, s') ->
  WF E s -> per s' = per s /\ y_ts (n_sync s') = y_ts (n_sync s).
Proof.
  intros H R W. split.
  - clear W. revert s H R. induction ops as [|o ops IH]; intros s H R; [cbn in R; injection R as <-; auto|].
    cbn [forallb] in H. apply andb_prop in H. destruct H as [Ho H]. apply andb_prop in Ho. destruct Ho as [H1 H2].
    apply negb_true_iff in H1, H2. apply run_cons in R. destruct R as (s1 & R1 & R). rewrite (IH _ H R). eapply per_other; eauto.
  - assert (no_requests ops) as Nr.
    { unfold no_requests. clear -H. induction ops as [|o ops IH]; cbn in *; auto. apply andb_prop in H. destruct H as [H1 H].
      apply andb_prop in H1. destruct H1 as [-> _]. cbn. auto. }
    destruct (run_nonreq _ _ _ _ Nr W R) as [[_ Q] _]. unfold cyc_obs in Q. injection Q as _ _ _ Q _ _. exact Q.
Qed.

Lemma period_distance pre d1 t1 mid d2 t2 mid' s0 s1 s2 s3 s4 s5 p :
  reached E pre s0 -> step E (request d1 t1) s0 = Ret (tt, s1) -> no_requests mid -> run E mid s1 = Ret (tt, s2) ->
  step E (request d2 t2) s2 = Ret (tt, s3) ->
  forallb (fun o => negb (is_request o) && negb (is_trigger o)) mid' = true -> run E mid' s3 = Ret (tt, s4) ->
  get_period E s4 = Ret (p, s5) ->
  p = N.min (u32_sub t2 t1) (PMAX E).
Proof.
  intros R0 H1 Nr Hm H2 Nm Hm' G.
  pose proof (reached_step _ _ _ _ R0 H1) as R1. pose proof (reached_run _ _ _ _ R1 Hm) as R2. pose proof (reached_step _ _ _ _ R2 H2) as R3.
  apply step_request in H1; [|reflexivity|eapply HwI_reached; eauto]. apply step_request in H2; [|reflexivity|eapply HwI_reached; eauto].
  apply on_process_inv in H1. apply on_process_inv in H2. cbn zeta in H1, H2.
  destruct H1 as (_ & _ & _ & T1 & _). destruct H2 as (_ & _ & _ & _ & P2 & _).
  destruct (run_nonreq _ _ _ _ Nr (WF_reached _ _ _ R1) Hm) as [[_ Q] _]. unfold cyc_obs in Q. injection Q as _ _ _ Q _ _.
  destruct (per_run _ _ _ Nm Hm' (WF_reached _ _ _ R3)) as [P _].
  unfold per in P. rewrite P2, Q, T1 in P. rewrite <- P. unfold get_period in G. mbind G as q s6 G1. apply gets_inv in G1. destruct G1 as [-> ->].
  destruct (PMAX E <? y_per (n_sync s4)) eqn:L; minv_all; lia.
Qed.

Lemma period_max s p s' : get_period E s = Ret (p, s') -> p <= PMAX E.
Proof.
  unfold get_period. intro G. mbind G as q s6 G1. apply gets_inv in G1. destruct G1 as [-> ->].
  destruct (PMAX E <? y_per (n_sync s)) eqn:L; minv_all; lia.
Qed.

(** *** first request callbacks *)
Lemma num_app p a b : num p (a ++ b) = (num p a + num p b)%nat.
Proof. unfold num. rewrite filter_app, app_length. reflexivity. Qed.
Definition same_num (p : event -> bool) (s s' : node) : Prop :=
  exists new, n_log s' = n_log s ++ new /\ filter p new = [] .
#[local] Instance pre_same_num p : Pre (same_num p).
Proof.
  split; [intro s; exists []; rewrite app_nil_r; auto|].
  intros a b c (l & L & F) (l' & L' & F'). exists (l ++ l'). rewrite L', L, app_assoc, filter_app, F, F'. auto.
Qed.
Lemma same_num_none p s s' : n_log s' = n_log s -> same_num p s s'.
Proof. intro H. exists []. rewrite app_nil_r. auto. Qed.
Lemma same_num_one p s s' e : p e = false -> n_log s' = n_log s ++ [e] -> same_num p s s'.
Proof. intros Q H. exists [e]. cbn. rewrite Q. auto. Qed.
Lemma same_num_check p now : p = is_freq \/ p = is_fstat -> pres (same_num p) (check_image now).
Proof.
  intros Hp s u s' H. destruct u. apply check_image_inv in H. cbn zeta in H. destruct H as (_ & _ & _ & _ & L). eexists. split; [exact L|].
  assert (forall l, filter p (map (ev_of s now) l) = []) as F by (induction l; destruct Hp; subst; auto).
  destruct (evaluated s); [|reflexivity]. rewrite filter_app, F. destruct (forallb (module_valid s) (seq 0 (nmod s))); destruct Hp; subst; reflexivity.
Qed.

(** first process request *)
Definition FR (s s' : node) : Prop := same_num is_freq s s' /\ y_first (n_sync s') = y_first (n_sync s).
#[local] Instance pre_FR : Pre FR.
Proof. split; [intro; split; [apply pre_refl|auto] | intros a b c [] []; split; [eapply pre_trans; eauto|congruence]]. Qed.
Ltac fr_leaf := split; [first [apply same_num_none; reflexivity | eapply same_num_one; [|reflexivity]; first [reflexivity | assumption]] | reflexivity].

Lemma FR_check now : pres FR (check_image now).
Proof.
  intros s u s' H. split; [revert H; apply same_num_check; auto|]. destruct u. apply check_image_inv in H. cbn zeta in H.
  destruct H as (_ & _ & _ & (img & Y) & _). rewrite Y.
  destruct (y_pr_flag (n_sync s)), (evaluated s); try reflexivity; destruct (forallb (module_valid s) (seq 0 (nmod s))); reflexivity.
Qed.
Lemma FR_other o : is_request o = false -> pres FR (step E o).
Proof.
  assert (forall a b c, pres FR (on_sys E a b c)) as Hsys.
  { intros. apply (pres_on_sys E FR (fun e => is_freq e = false)); intros; try reflexivity; try fr_leaf.
    - unfold set_cycle_time. pres_tac; fr_leaf.
    - pres_tac; fr_leaf. }
  intros H1. destruct o as [mo id dlc data now|d nr rxs txs|t n st|t n a|t d rxs txs cb|v|cb|k t n cb|cb|cb|a t r|e p n|now| |t|m|r|a data|t on].
  { cbn [is_request] in H1. cbn [step]. unfold frame_rx. refine (pres_bind _ _ _ _ _); [pres_tac|intro sy]. rewrite H1.
    repeat (simple apply Hsys || pres_tac1). simple apply (pres_on_data E FR); intros; fr_leaf. }
  all: match goal with |- pres _ (step E ?o) =>
    refine (pres_other E FR (fun e => is_freq e = false) _ _ _ _ _ _ _ _ _ _ _ _ o _); intros; try exact I; try reflexivity; try fr_leaf end.
  all: unfold set_cycle_time, trigger_period, get_period; pres_tac; try fr_leaf.
  all: unfold upd_sync; cbn zeta; destruct (_ <? _); fr_leaf.
Qed.
Lemma FR_after dlc now : pres FR (check_image now ;;; send_process_data E ;;; rx_process_main dlc now ;;;
  c <- gets err_count ;; if (0 <? c)%nat then send_one_error else ret tt).
Proof.
  unfold rx_process_main.
  repeat (simple apply FR_check || (simple apply (pres_send_process E FR (fun e => is_freq e = false)); intros; try reflexivity; try fr_leaf)
    || (simple apply (pres_one_error FR (fun e => is_freq e = false)); intros; try reflexivity; try fr_leaf) || pres_tac1); fr_leaf.
Qed.
Lemma first_request_step mo id d data t s s' : (mo =? MO_PROCESS)%nat = true -> HwI E s ->
  step E (OpFrame mo id d data t) s = Ret (tt, s') ->
  y_first (n_sync s') = true /\ exists new, n_log s' = n_log s ++ new /\
    filter is_freq new = (if y_first (n_sync s) then [] else [EvFirstReq (y_cbf (n_sync s))]).
Proof.
  intros Hm HI H. apply step_request in H; auto. unfold on_process in H. mbind H as u s1 H1. apply FR_after in H. destruct H as [(l & L & F) Y].
  unfold process_request_rx in H1. mbind H1 as y s2 H2. apply gets_inv in H2. destruct H2 as [-> ->]. mbind H1 as u2 s2 H2.
  mbind H1 as n s3 H3. apply gets_inv in H3. destruct H3 as [-> ->].
  assert (FR s2 s1) as [(l1 & L1 & F1) Y1].
  { revert H1. generalize (nmod s2), 0%nat. intros n i H1. revert H1. 
    enough (pres FR (for_do n i (fun i0 => cb <- gets (fun s0 => nth i0 (y_cbr (n_sync s0)) None);; emit_cb cb (fun c => EvProcReq i0 c)))) as Hp by (apply Hp).
    pres_tac; fr_leaf. }
  destruct (y_first (n_sync s)) eqn:Yf.
  - apply ret_inv in H2. destruct H2 as [_ ->]. split; [congruence|]. exists (l1 ++ l). rewrite L, L1, app_assoc, filter_app, F, F1. auto.
  - mbind H2 as u3 s3 H3. apply modify_inv in H3. unfold emit in H2. apply modify_inv in H2. subst s2 s3. cbn in L1, Y1.
    split; [congruence|]. exists (EvFirstReq (y_cbf (n_sync s)) :: l1 ++ l). rewrite L, L1, <- !app_assoc. cbn [filter is_freq]. rewrite filter_app, F, F1. auto.
Qed.
Definition FirstI (s : node) : Prop := num is_freq (n_log s) = (if y_first (n_sync s) then 1 else 0)%nat.
Lemma FirstI_step o s s' : HwI E s -> FirstI s -> step E o s = Ret (tt, s') -> FirstI s'.
Proof.
  intros HI C H. unfold FirstI in *. destruct (is_request o) eqn:Rq.
  - destruct o; try discriminate. cbn in Rq. apply first_request_step in H; auto. destruct H as (Y & l & L & F).
    rewrite Y, L, num_app, C. unfold num at 1. rewrite F. destruct (y_first (n_sync s)); reflexivity.
  - apply FR_other in H; auto. destruct H as [(l & L & F) Y]. rewrite Y, L, num_app, C. unfold num. rewrite F. cbn. lia.
Qed.
Lemma FirstI_reached ops s : reached E ops s -> FirstI s.
Proof.
  intros (s0 & B & R). assert (FirstI s0 /\ HwI E s0) as [C0 HI].
  { split; [|apply HwI_booted, B]. destruct (sync_booted _ B) as [Y L]. unfold FirstI. rewrite Y, L. reflexivity. }
  clear B. revert s0 C0 HI R. induction ops as [|o ops IH]; intros s0 C0 HI R.
  - cbn in R. injection R as <-. exact C0.
  - apply run_cons in R. destruct R as (s1 & H1 & R). eapply IH; [| |exact R].
    + eapply FirstI_step; eauto.
    + eapply HwR_step; eauto.
Qed.
Lemma first_request ops o s s' new : reached E ops s -> step E o s = Ret (tt, s') -> added s s' new ->
  filter is_freq new = (if is_request o && (num is_freq (n_log s) =? 0)%nat then [EvFirstReq (y_cbf (n_sync s))] else []).
Proof.
  intros R H A. pose proof (HwI_reached _ _ _ R) as HI. pose proof (FirstI_reached _ _ R) as C. unfold FirstI in C. rewrite C.
  unfold added in A. destruct (is_request o) eqn:Rq; cbn [andb].
  - destruct o; try discriminate. cbn in Rq. apply first_request_step in H; auto. destruct H as (_ & l & L & F).
    rewrite A in L. apply app_inv_head in L. subst l. rewrite F. destruct (y_first (n_sync s)); reflexivity.
  - apply FR_other in H; auto. destruct H as [(l & L & F) _]. rewrite A in L. apply app_inv_head in L. subst l. exact F.
Qed.
Lemma verdict_call_reached pre d t s s' new pos v cb now : reached E pre s -> step E (request d t) s = Ret (tt, s') -> added s s' new ->
  In (EvVerdict pos v cb now) new -> now = t /\ cb = nth pos (if v then y_cbv (n_sync s) else y_cbn (n_sync s)) None.
Proof. intros R. eapply verdict_call, HwI_reached, R. Qed.

Lemma long_request_next pre d0 t0 sup d1 t1 mid d2 t2 s00 s01 s0 s1 s2 s3 new :
  reached E pre s00 -> 1 < d0 -> step E (request d0 t0) s00 = Ret (tt, s01) -> no_requests sup -> run E sup s01 = Ret (tt, s0) ->
  d1 <= 1 -> step E (request d1 t1) s0 = Ret (tt, s1) -> no_requests mid -> run E mid s1 = Ret (tt, s2) ->
  step E (request d2 t2) s2 = Ret (tt, s3) -> added s2 s3 new ->
  map fst (verdicts new) = seq 0 (nmod s2) /\
  forall pos v, In (pos, v) (verdicts new) -> (listening s2 pos <= listening s0 pos)%nat ->
    (v = true <-> forall obj, (obj < listening s2 pos)%nat -> N.of_nat (receptions E s1 mid pos obj) mod 65536 = 1).
Proof.
  intros R0 _ H0 _ Hs D1 H1 Nr Hm H2 A. pose proof (reached_step _ _ _ _ R0 H0) as R1. pose proof (reached_run _ _ _ _ R1 Hs) as R2.
  eapply image_verdict; eauto. rewrite !existsb_app. cbn. rewrite orb_true_r. reflexivity.
Qed.

Lemma no_verdict_between pre o s s' new : reached E pre s -> is_request o = false -> step E o s = Ret (tt, s') -> added s s' new ->
  verdicts new = [] /\ image_hooks new = 0%nat.
Proof.
  intros R Nr H A. assert (run E [o] s = Ret (tt, s')) as H' by (cbn; unfold bind; rewrite H; reflexivity).
  assert (no_requests [o]) as N1 by (unfold no_requests; cbn; rewrite Nr; reflexivity).
  destruct (run_nonreq _ _ _ _ N1 (WF_reached _ _ _ R) H') as [[Q _] _]. pose proof (step_quiet_added _ _ _ Q A) as Qn.
  split; [apply quiet_verdicts | apply quiet_hooks]; exact Qn.
Qed.

Lemma cycle_time_set t s : exists e s',
  set_cycle_time E t s = Ret (e, s') /\ y_cyc (n_sync s') = N.min t (PMAX E) /\ (e = ERR_OK <-> t <= PMAX E) /\
  s' = set_n_sync s (set_y_cyc (n_sync s) (N.min t (PMAX E))).
Proof.
  unfold set_cycle_time. destruct (t <=? PMAX E) eqn:L; do 2 eexists; (split; [reflexivity|]); cbn;
   (replace (N.min t (PMAX E)) with (if t <=? PMAX E then t else PMAX E) by (destruct (N.leb_spec t (PMAX E)); lia)); rewrite L; (split; [reflexivity|]); (split; [|reflexivity]).
  - split; [lia|reflexivity].
  - split; [discriminate|lia].
Qed.
End Image.
