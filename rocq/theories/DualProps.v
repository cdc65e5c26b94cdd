(** C74 to C76: a node with a main and a monitor controller. *)
From Verif Require Import Words ErrModel NodeModel ReconModel.
From Verif Require Import DualModel DualSpec Dual.
From Coq Require Import Lia.

Definition yes : nat -> bool := fun _ => true.
Lemma yes_obeys : obeys yes.
Proof. intros n; reflexivity. Qed.
Example fresh0 : fresh dual0.
Proof. split; reflexivity. Qed.

(** * C74: both controllers run at the same rate *)

(** after every history, whatever the driver answers to mode changes, as long as it refused no rate *)
Theorem C74_same_partial ans ops s :
  d_log s = [] -> rates_accepted (drun ans ops s) -> rate_of Main (drun ans ops s) = rate_of Mon (drun ans ops s).
Proof. intros H. apply keep_run. intros _. unfold rate_of. now rewrite H. Qed.
Print Assumptions C74_same_partial.
(** start with a search, two steps, settle, baud rate message, refused rate *)
Definition tour : list dop := [DSearchStart 250; DNext; DNext; DEnd; DBus 500; DRate 125; DSearch; DNext; DEnd].
Example C74_same_ex :
  d_log dual0 = [] /\ rates_accepted (drun yes tour dual0) /\ rate_of Main (drun yes tour dual0) = Some 125.
Proof.
  split; [reflexivity|]. split; [|vm_compute; reflexivity].
  intros w r Hin. set (l := d_log (drun yes tour dual0)) in Hin.
  assert (E : forallb (fun c => match c with CallRate _ _ false => false | _ => true end) l = true) by (vm_compute; reflexivity).
  clearbody l. rewrite forallb_forall in E. apply E in Hin. discriminate Hin.
Qed.

(** a rate of the table that the hardware knows is set on both, by the library in a stopped node, by the message in every mode *)
Theorem C74_set_partial ans r s :
  obeys ans -> In r (d_tab s) -> common r ->
  (d_mode s = MInit \/ d_mode s = MStopped ->
   exists s', dstep ans (DRate r) s = (ERR_OK, s') /\ d_mode s' = d_mode s /\ d_cur s' = r /\ d_saved s' = Some r
     /\ rate_of Main s' = Some r /\ rate_of Mon s' = Some r /\ mode_of Main s' = mode_of Main s)
  /\ (exists s', dstep ans (DBus r) s = (ERR_OK, s') /\ d_mode s' = d_mode s /\ d_cur s' = r /\ d_saved s' = Some r
        /\ rate_of Main s' = Some r /\ rate_of Mon s' = Some r)
  /\ (d_mode s = MOperational \/ d_mode s = MListen ->
      exists s', dstep ans (DRate r) s = (E_INVALID_BAUDRATE, s') /\ d_log s' = d_log s).
Proof.
  intros O Hi Hc. split; [|split].
  - intros Hm. cbn [dstep]. destruct (dset_rate_cases ans r s O) as [_ [B _]].
    destruct (B Hi Hc Hm) as [s' [E [_ [Em [Ec [Es [L [El [X [Y Z]]]]]]]]]]. exists s'. split; [exact E|].
    split; [exact Em|]. split; [exact Ec|]. split; [exact Es|].
    unfold rate_of, mode_of. now rewrite El, !rate_after_app, mode_after_app, !Z, X.
  - cbn [dstep]. unfold bus_rate. unfold dok at 1. rewrite set_mode_log by exact O. change (ERR_OK =? ERR_OK) with true. cbv beta iota.
    set (s1 := w_dlog _ _).
    destruct (switch ans r (d_mode s) s s1 O Hi Hc eq_refl eq_refl) as [s' [E [Em [Ec [Es [_ [R1 [R2 _]]]]]]]].
    exists s'. auto 7.
  - intros Hm. cbn [dstep]. destruct (dset_rate_cases ans r s O) as [_ [_ C]].
    eexists. split; [apply (C Hi); right; destruct Hm as [-> | ->]; split; discriminate|reflexivity].
Qed.
Print Assumptions C74_set_partial.
Example C74_set_ex : obeys yes /\ In 500 (d_tab dual0) /\ common 500 /\ d_mode dual0 = MInit.
Proof. split; [apply yes_obeys|]. split; [cbn; auto|]. split; [unfold common; auto|reflexivity]. Qed.

(** the outcome of CpCoreBitrate is ignored: the monitor keeps its rate, the start reports success *)
Theorem C74_driver_refuted :
  exists ans ops r, fst (dstep ans (DBus r) (drun ans ops dual0)) = ERR_OK
    /\ let s := drun ans (ops ++ [DBus r]) dual0 in
       d_mode s = MOperational /\ mode_of Main s = CStart /\ mode_of Mon s = CStart
       /\ rate_of Main s = Some r /\ rate_of Mon s <> Some r /\ rate_of Mon s <> None /\ d_cur s = r.
Proof.
  exists (fun n => negb (n =? 12)%nat), [DStart 250], 500. split; [vm_compute; reflexivity|].
  vm_compute. repeat split; discriminate.
Qed.
Print Assumptions C74_driver_refuted.

(** the current rate the library reports is not the rate of the controllers after a refused change *)
Theorem C74_current_refuted ans r s :
  obeys ans -> In r (d_tab s) -> d_mode s = MOperational \/ d_mode s = MListen -> rate_of Main s <> Some r ->
  fst (dstep ans (DRate r) s) = E_INVALID_BAUDRATE /\ d_cur (snd (dstep ans (DRate r) s)) = r
  /\ rate_of Main (snd (dstep ans (DRate r) s)) <> Some r.
Proof.
  intros O Hi Hm Hr. cbn [dstep]. destruct (dset_rate_cases ans r s O) as [_ [_ C]].
  rewrite (C Hi) by (right; destruct Hm as [-> | ->]; split; discriminate). cbn. auto.
Qed.
Print Assumptions C74_current_refuted.
Example C74_current_ex :
  In 500 (d_tab (drun yes [DStart 250] dual0)) /\ d_mode (drun yes [DStart 250] dual0) = MOperational
  /\ rate_of Main (drun yes [DStart 250] dual0) <> Some 500.
Proof. vm_compute. split; [auto|]. split; [reflexivity|discriminate]. Qed.

(** a start with a rate that is not in the table reports success and leaves both controllers running without a rate *)
Theorem C74_unset_refuted ans r s :
  obeys ans -> fresh s -> ~ In r (d_tab s) ->
  fst (dstep ans (DStart r) s) = ERR_OK
  /\ let s' := snd (dstep ans (DStart r) s) in
     d_run s' = true /\ mode_of Main s' = CStart /\ mode_of Mon s' = CStart /\ rate_of Main s' = None /\ rate_of Mon s' = None.
Proof.
  intros O [Hm Hl] Hn. set (x := dstep ans (DStart r) s).
  assert (E : exists s1, x = (ERR_OK, w_drun true s1) /\ d_log s1 =
    [CallMode Main CStop true; CallMode Mon CStart true; CallMode Main CStart true; CallMode Mon CStart true]).
  { subst x. cbn [dstep]. unfold go_online, dthen. rewrite set_mode_log by exact O. cbn [snd].
    set (s1 := w_dlog _ _). destruct (dset_rate_cases ans r s1 O) as [A _]. unfold dok. rewrite (A Hn).
    rewrite set_mode_log by exact O. change (ERR_OK =? ERR_OK) with true. eexists. split; [reflexivity|].
    subst s1. cbn. rewrite Hl. reflexivity. }
  clearbody x. destruct E as [s1 [-> E]]. unfold mode_of, rate_of. cbn. rewrite E. repeat split.
Qed.
Print Assumptions C74_unset_refuted.
Example C74_unset_ex : obeys yes /\ fresh dual0 /\ ~ In 100 (d_tab dual0).
Proof. split; [apply yes_obeys|]. split; [apply fresh0|]. cbn. intros H; repeat (destruct H as [H|H]; [discriminate|]); exact H. Qed.

(** * C75: the mode of the node is the mode of both controllers *)

(** after every history with a driver that refuses nothing: an operational node has both started, a listening node has both
    listening, otherwise the main controller is stopped *)
Theorem C75_modes_partial ans ops s :
  obeys ans -> fresh s ->
  let s' := drun ans ops s in
  match d_mode s' with
  | MOperational => mode_of Main s' = CStart /\ mode_of Mon s' = CStart
  | MListen => mode_of Main s' = CListen /\ mode_of Mon s' = CListen
  | MStopped | MInit => mode_of Main s' = CStop
  end.
Proof.
  intros O [Hm Hl] s'. assert (M : modes s').
  { apply run_modes; [exact O|]. unfold modes, mode_of. rewrite Hm, Hl. split; [reflexivity|exact I]. }
  unfold modes in M. destruct (d_mode s'); cbn in M; tauto.
Qed.
Print Assumptions C75_modes_partial.
Example C75_modes_ex :
  d_mode (drun yes tour dual0) = MOperational /\ d_mode (drun yes [DSearchStart 250; DNext] dual0) = MListen
  /\ d_mode (drun yes [DStart 250; DMode MStopped] dual0) = MStopped.
Proof. vm_compute. auto. Qed.

(** a start with a rate of the table runs both controllers at it *)
Theorem C75_start_partial ans r s :
  obeys ans -> In r (d_tab s) -> common r ->
  exists s', dstep ans (DStart r) s = (ERR_OK, s') /\ d_run s' = true /\ d_mode s' = MOperational
    /\ mode_of Main s' = CStart /\ mode_of Mon s' = CStart /\ rate_of Main s' = Some r /\ rate_of Mon s' = Some r.
Proof.
  intros O Hi Hc. cbn [dstep]. unfold go_online, dthen. rewrite set_mode_log by exact O. cbn [snd]. set (s1 := w_dlog _ _).
  destruct (switch ans r MOperational s s1 O Hi Hc eq_refl eq_refl) as [s' [E [Em [_ [_ [_ [R1 [R2 [M1 M2]]]]]]]]].
  assert (A : (dset_rate ans r ;;& dset_mode ans MOperational ;;& dset (w_drun true)) s1 = (ERR_OK, w_drun true s')).
  { unfold dok in *. destruct (dset_rate ans r s1) as [e1 s2]. destruct (e1 =? ERR_OK) eqn:E1.
    - rewrite E. change (ERR_OK =? ERR_OK) with true. reflexivity.
    - inversion E. subst e1. discriminate E1. }
  exists (w_drun true s'). split; [exact A|]. split; [reflexivity|]. split; [exact Em|]. auto.
Qed.
Print Assumptions C75_start_partial.
Example C75_start_ex : In 1000 (d_tab dual0) /\ common 1000.
Proof. split; [cbn; auto|unfold common; auto]. Qed.

(** the monitor of a stopped node is started: it acknowledges frames and sends error frames *)
Theorem C75_stopped_refuted ans s :
  obeys ans ->
  let s' := snd (dstep ans (DMode MStopped) s) in
  fst (dstep ans (DMode MStopped) s) = ERR_OK /\ d_mode s' = MStopped /\ mode_of Main s' = CStop /\ mode_of Mon s' = CStart.
Proof.
  intros O. cbn [dstep]. rewrite set_mode_log by exact O. cbn [fst snd]. unfold mode_of. cbn.
  rewrite !mode_after_app. cbn. auto.
Qed.
Print Assumptions C75_stopped_refuted.

(** the failure of the main controller is lost: the start reports success *)
Theorem C75_lost_refuted :
  exists ans, fst (dstep ans (DStart 250) dual0) = ERR_OK
    /\ let s := drun ans [DStart 250] dual0 in d_run s = true /\ d_mode s = MOperational /\ mode_of Main s = CStop.
Proof. exists (fun n => negb (n =? 6)%nat). vm_compute. auto. Qed.
Print Assumptions C75_lost_refuted.

(** * C76: a search for the rate does not disturb the bus *)

(** the main controller is at no moment of a search step active, whatever the driver answers, once it is not *)
Theorem C76_main_partial ans n s :
  mode_of Main s <> CStart ->
  let s1 := drun ans (repeat DNext n) s in
  mode_of Main s1 <> CStart
  /\ forall calls, moment s1 (snd (dstep ans DNext s1)) calls -> mode_after Main CStop calls <> CStart.
Proof.
  intros H. cbv zeta.
  assert (A : mode_of Main (drun ans (repeat DNext n) s) <> CStart).
  { revert s H. induction n as [|n IH]; intros s H; [exact H|]. cbn [repeat drun dstep]. apply IH.
    destruct (quiet_next ans s) as [_ [L [E F]]]. unfold mode_of in *. rewrite E, mode_after_app. now apply quiet_mode_after. }
  split; [exact A|]. intros calls M. cbn [dstep] in M. destruct (quiet_next ans (drun ans (repeat DNext n) s)) as [_ [L [E F]]].
  eapply moment_quiet; eauto.
Qed.
Print Assumptions C76_main_partial.
Example C76_main_ex : mode_of Main (drun yes [DStart 250; DSearch] dual0) <> CStart.
Proof. vm_compute. discriminate. Qed.

(** after the step both listen at the next rate of the search, which is set at the end *)
Theorem C76_step_partial ans s :
  obeys ans -> (forall r, common r -> In r (d_tab s)) -> (d_idx s < 4)%nat ->
  let i := ((d_idx s + 1) mod 4)%nat in
  let r := nth i [125; 1000; 500; 250] 0 in
  let s' := snd (dstep ans DNext s) in
  d_idx s' = i /\ d_mode s' = MListen /\ mode_of Main s' = CListen /\ mode_of Mon s' = CListen
  /\ rate_of Main s' = Some r /\ rate_of Mon s' = Some r
  /\ let s'' := snd (dstep ans DEnd s') in
     fst (dstep ans DEnd s') = ERR_OK /\ d_run s'' = true /\ d_mode s'' = MOperational
     /\ mode_of Main s'' = CStart /\ mode_of Mon s'' = CStart /\ rate_of Main s'' = Some r /\ rate_of Mon s'' = Some r.
Proof.
  intros O Ht Hi i r s'.
  assert (Ei : (if (d_idx s <? 3)%nat then S (d_idx s) else 0%nat) = i).
  { subst i. destruct (d_idx s <? 3)%nat eqn:L; [apply Nat.ltb_lt in L|apply Nat.ltb_ge in L]; lia. }
  assert (Hc : common r).
  { subst r. assert (Hl : (i < 4)%nat) by (subst i; apply Nat.mod_upper_bound; discriminate). clearbody i. unfold common.
    do 4 (destruct i as [|i]; [cbn; auto|]). lia. }
  assert (A : exists e, dstep ans DNext s = (e, s') /\ d_idx s' = i /\ d_mode s' = MListen /\ d_back s' = r
     /\ d_tab s' = d_tab s
     /\ mode_of Main s' = CListen /\ mode_of Mon s' = CListen /\ rate_of Main s' = Some r /\ rate_of Mon s' = Some r).
  { subst s'. cbn [dstep]. unfold search_next. rewrite Ei. change (nth i search_tab 0) with r.
    unfold mon_disable, dthen. rewrite mon_mode_log by exact O. cbn [dset snd]. rewrite set_mode_log by exact O. cbn [snd].
    set (s1 := w_dlog _ _). destruct (dset_rate_cases ans r s1 O) as [_ [B _]].
    destruct (B (Ht r Hc) Hc (or_intror eq_refl)) as [s2 [E [[T [X1 [X2 X3]]] [Em [Ec [Es [L [El [X [Y Z]]]]]]]]]].
    rewrite E. change (ERR_OK =? ERR_OK) with true. cbv beta iota. rewrite set_mode_log by exact O. cbn [snd].
    rewrite mon_enable_log by exact O. cbn [snd]. exists ERR_OK. split; [reflexivity|].
    split; [exact X1|]. split; [reflexivity|]. split; [reflexivity|]. split; [exact T|].
    unfold rate_of, mode_of. cbn. rewrite El, !rate_after_app, !mode_after_app. cbn. rewrite !Z. auto. }
  clearbody s'. destruct A as [e [_ [A1 [A2 [A3 [A4 [A5 [A6 [A7 A8]]]]]]]]].
  do 6 (split; [assumption|]). cbv zeta. cbn [dstep].
  assert (Hr : In r (d_tab s')) by (rewrite A4; auto).
  unfold search_end, mon_disable, dthen. rewrite mon_mode_log by exact O. cbn [snd]. rewrite set_mode_log by exact O. cbn [snd].
  set (s1 := w_dlog _ _). rewrite A3.
  destruct (switch ans r MOperational s' s1 O Hr Hc eq_refl eq_refl) as [s2 [E [Em [_ [_ [_ [R1 [R2 [M1 M2]]]]]]]]].
  assert (A : (dset_rate ans r ;;& dset_mode ans MOperational ;;& dset (w_drun true)) s1 = (ERR_OK, w_drun true s2)).
  { unfold dok in *. destruct (dset_rate ans r s1) as [e1 s3]. destruct (e1 =? ERR_OK) eqn:E1.
    - rewrite E. change (ERR_OK =? ERR_OK) with true. reflexivity.
    - inversion E. subst e1. discriminate E1. }
  rewrite A. cbn [fst snd]. split; [reflexivity|]. split; [reflexivity|]. split; [exact Em|]. auto.
Qed.
Print Assumptions C76_step_partial.
Example C76_step_ex : (forall r, common r -> In r (d_tab dual0)) /\ (d_idx dual0 < 4)%nat.
Proof. split; [|cbn; lia]. intros r [-> | [-> | [-> | ->]]]; cbn; auto. Qed.

(** a start with a search leaves both controllers listening, at the rate given to the initialisation, before the first step *)
Theorem C76_begin_partial ans r s :
  obeys ans -> In r (d_tab s) -> common r ->
  let s' := snd (dstep ans (DSearchStart r) s) in
  d_mode s' = MListen /\ d_idx s' = 0%nat /\ mode_of Main s' = CListen /\ mode_of Mon s' = CListen
  /\ rate_of Main s' = Some r /\ rate_of Mon s' = Some r.
Proof.
  intros O Hi Hc. cbv zeta. cbn [dstep]. unfold go_search, dthen. rewrite (set_mode_log ans MStopped s O). cbn [snd]. set (s1 := w_dlog _ (w_dmode MStopped s)).
  destruct (dset_rate_cases ans r s1 O) as [_ [B _]].
  destruct (B Hi Hc (or_intror eq_refl)) as [s2 [E [[T [X1 [X2 X3]]] [Em [Ec [Es [L [El [X [Y Z]]]]]]]]]].
  rewrite E. cbn [dset snd]. rewrite set_mode_log by exact O. cbn [snd].
  split; [reflexivity|]. split; [reflexivity|]. unfold rate_of, mode_of. cbn. rewrite El, !rate_after_app, !mode_after_app. cbn. rewrite !Z. auto.
Qed.
Print Assumptions C76_begin_partial.
Example C76_begin_ex : In 250 (d_tab dual0) /\ common 250.
Proof. split; cbn; auto. unfold common. auto. Qed.

(** but every step starts the monitor while it still has the old rate *)
Theorem C76_active_refuted ans s :
  obeys ans ->
  exists calls, moment s (snd (dstep ans DNext s)) calls
    /\ mode_after Mon CStop calls = CStart /\ rate_after Mon None calls = rate_of Mon s.
Proof.
  intros O. cbn [dstep]. unfold search_next. set (i := if (d_idx s <? 3)%nat then S (d_idx s) else 0%nat).
  set (r := nth i search_tab 0). unfold mon_disable, dthen. rewrite mon_mode_log by exact O. cbn [dset snd].
  rewrite set_mode_log by exact O. cbn [snd]. set (s1 := w_dlog _ _).
  assert (Hl : exists L, d_log (snd (mon_enable ans (snd (let '(e, s2) := dset_rate ans r s1 in
     if e =? ERR_OK then dset_mode ans MListen (w_dback r s2) else (e, w_dback r s2))))) = d_log s1 ++ L).
  { destruct (quiet_set_rate ans r s1) as [_ [L1 [E1 _]]]. destruct (dset_rate ans r s1) as [e s2]; cbn [snd] in *.
    rewrite mon_enable_log by exact O. cbn [snd]. destruct (e =? ERR_OK).
    - rewrite set_mode_log by exact O. cbn [snd]. eexists. cbn [w_dlog w_dback d_log w_dmode]. rewrite E1, <- !app_assoc. reflexivity.
    - cbn [snd]. eexists. cbn [w_dlog w_dback d_log w_dmode]. rewrite E1, <- !app_assoc. reflexivity. }
  destruct Hl as [L Hl]. exists (d_log s1). split.
  - exists [CallMode Mon CStop true; CallMode Main CStop true; CallMode Mon CStart true], L. split.
    + subst s1. cbn. now rewrite <- app_assoc.
    + rewrite Hl. subst s1. cbn. now rewrite <- !app_assoc.
  - unfold rate_of. subst s1. cbn. rewrite !mode_after_app, !rate_after_app. cbn. auto.
Qed.
Print Assumptions C76_active_refuted.

(** and a start with a search starts the monitor before any rate is set *)
Theorem C76_start_refuted ans r s :
  obeys ans -> fresh s ->
  exists calls, moment s (snd (dstep ans (DSearchStart r) s)) calls
    /\ mode_after Mon CStop calls = CStart /\ rate_after Mon None calls = None.
Proof.
  intros O [_ Hl]. cbn [dstep]. unfold go_search, dthen. rewrite (set_mode_log ans MStopped s O). cbn [snd]. set (s1 := w_dlog _ (w_dmode MStopped s)).
  destruct (quiet_set_rate ans r s1) as [_ [L [E _]]]. set (s2 := snd (dset_rate ans r s1)) in *.
  cbn [dset snd]. rewrite set_mode_log by exact O. cbn [snd].
  exists (d_log s1). split; [|subst s1; cbn; rewrite Hl; cbn; auto].
  exists [CallMode Main CStop true; CallMode Mon CStart true]. eexists. split; [reflexivity|].
  cbn [w_dlog d_log w_didx w_dmode]. rewrite E. subst s1. cbn. rewrite <- !app_assoc. cbn. reflexivity.
Qed.
Print Assumptions C76_start_refuted.
