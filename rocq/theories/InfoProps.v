(** Properties of the persistent download information and of the start after a download (C46, C47, C58). *)
From Verif Require Import Words ErrModel NodeModel LookModel XloadModel XloadSpec InfoModel InfoSpec InfoProofs ApiProofs.

(** a checksum function for the examples *)
Definition crcX : crcf := CrcF 0xFFFF (fun c l => fold_left (fun a b => (a * 31 + b) mod 65536) l c).
Definition blank : mem := repeat 0xA5 38.
Definition compX (nr : N) : list byte := [nr; 0] ++ [77; 67; 0; 0; 0; 0; 0; 0; 0] ++ repeat 0 17.
Lemma blank_image : image blank.
Proof. split; [reflexivity|]. repeat constructor. Qed.
Lemma compX_ok nr : nr < 256 -> iop_ok (IComp (compX nr)).
Proof. intros H. split; [reflexivity|]. constructor; [exact H|]. repeat constructor. Qed.

(** C46: after an initialisation, and after every further completed update, the checksum matches, whatever the memory
    contained before. *)
Theorem C46_completed_partial : forall C m0 os, image m0 -> Forall iop_ok os ->
  matches C (do_ops C (do_op C m0 IInit) os).
Proof.
  intros C m0 os I0 F. apply do_ops_matches; [unfold do_op; rewrite apply_length; apply I0|].
  apply do_op_matches; [apply I0|right; reflexivity].
Qed.
Print Assumptions C46_completed_partial.

(** C46: the power is lost after any number of byte stores of any update of any history, and the node is initialised
    again.  Then the checksum matches.  Either the initialisation reports success and has changed nothing, and the
    information is that of the last completed update, that of the interrupted one, or a mixture of both with the same
    checksum as the last completed one; or it reports the bad checksum and the information is the default. *)
Theorem C46_power_loss_partial : forall C m0 os o k, image m0 -> Forall iop_ok os -> iop_ok o ->
  let m := do_ops C (do_op C m0 IInit) os in
  let t := cut_op C k m o in
  let m' := do_op C t IInit in
  matches C m' /\
  ((matches C t /\ m' = t /\ init_rc C t = ERR_OK /\
    (content t = content m \/ content t = content (do_op C m o) \/
     (content t <> content m /\ checksum C (content t) = checksum C (content m)))) \/
   (~ matches C t /\ init_rc C t = E_XLOAD_INFO_BAD_CRC /\ defaults m')).
Proof. exact crash. Qed.
Print Assumptions C46_power_loss_partial.
(** the component is stored while the power fails after 5 bytes, and the next initialisation finds the bad checksum *)
Example C46_power_loss_ex :
  let m := do_ops crcX (do_op crcX blank IInit) [IComp (compX 10); IBaud 500; IMode 3] in
  let t := cut_op crcX 5 m (IComp (repeat 7 28)) in
  image blank /\ Forall iop_ok [IComp (compX 10); IBaud 500; IMode 3] /\ iop_ok (IComp (repeat 7 28)) /\
  get_mode m = 3 /\ get_nr m = 10 /\ get_nr t = 0x0707 /\ init_rc crcX t = 0x5074 /\ get_nr (do_op crcX t IInit) = 125.
Proof.
  cbv zeta. split; [apply blank_image|]. split.
  { constructor; [apply compX_ok; reflexivity|]. repeat constructor. }
  split; [split; [reflexivity|repeat constructor]|]. vm_compute. repeat split.
Qed.

(** C46: the updates of the mode and of the user bytes change one byte, so a power loss leaves the old or the new
    information or the default. *)
Theorem C46_mode_update_partial : forall C m o k, image m -> matches C m -> get_mode m < 6 -> iop_ok o ->
  (match o with IMode _ | IUser1 _ | IUser2 _ => True | _ => False end) ->
  let m' := do_op C (cut_op C k m o) IInit in
  content m' = content m \/ content m' = content (do_op C m o) \/ defaults m'.
Proof.
  intros C m o k I M G K O m'. pose proof (crash_one_byte C m o k I G K O) as H.
  assert (It : image (cut_op C k m o)) by (apply cut_op_image; assumption).
  destruct (matches_dec C (cut_op C k m o)) as [Q|Q].
  - destruct (init_keeps C _ (proj1 It) Q) as [A _]. unfold m'. rewrite A. destruct H as [H|H]; [left|right; left]; exact H.
  - right. right. apply init_resets; assumption.
Qed.
Print Assumptions C46_mode_update_partial.
Example C46_mode_update_ex :
  let m := do_ops crcX (do_op crcX blank IInit) [IComp (compX 10); IMode 3] in
  image m /\ matches crcX m /\ get_mode m = 3 /\
  map (fun k => get_mode (do_op crcX (cut_op crcX k m (IMode 4)) IInit)) [0; 1; 4; 5; 6; 7; 8]%nat = [3; 4; 4; 4; 4; 4; 4] /\
  map (fun k => get_nr (do_op crcX (cut_op crcX k m (IMode 4)) IInit)) [0; 1; 4; 5; 6; 7; 8]%nat = [10; 125; 125; 125; 125; 125; 10].
Proof.
  cbv zeta. split; [apply do_ops_image; [constructor; [apply compX_ok; reflexivity|repeat constructor]|]; apply do_op_image; [exact I|apply blank_image]|].
  split; [apply (C46_completed_partial crcX blank); [apply blank_image|constructor; [apply compX_ok; reflexivity|repeat constructor]]|].
  vm_compute. repeat split.
Qed.

(** C46, refuted for the update of the component: whatever checksum function the port supplies, some interrupted update
    leaves a mixture of two components that the next initialisation accepts as valid. *)
Theorem C46_component_refuted : forall C, exists m0 os c k,
  image m0 /\ Forall iop_ok os /\ iop_ok (IComp c) /\
  let m := do_ops C (do_op C m0 IInit) os in
  let t := cut_op C k m (IComp c) in
  init_rc C t = ERR_OK /\ do_op C t IInit = t /\
  get_comp t <> get_comp m /\ get_comp t <> get_comp (do_op C m (IComp c)) /\ ~ defaults t.
Proof. exact torn. Qed.
Print Assumptions C46_component_refuted.

(** C46, refuted for the defaults: the stored baud rate survives the reset of the information, valid or not. *)
Theorem C46_baud_rate_refuted : forall C m, image m -> ~ matches C m ->
  init_rc C m = E_XLOAD_INFO_BAD_CRC /\ get_baud (do_op C m IInit) = get_baud m.
Proof. intros C m I M. split; [apply init_resets; assumption|apply clean_baud; assumption]. Qed.
Print Assumptions C46_baud_rate_refuted.
Example C46_baud_rate_ex : image blank /\ ~ matches crcX blank /\ get_baud (do_op crcX blank IInit) = 0xA5A5.
Proof. split; [apply blank_image|]. split; [intros H; vm_compute in H; discriminate|vm_compute; reflexivity]. Qed.

(** C47: the stored information is valid and its mode is 'download acknowledge'.  In every history of initialisations,
    starts and resets: if no start succeeds nothing is sent and the information stays; otherwise the first successful
    start sends exactly the end acknowledge of the stored module, nothing else is ever sent, and the mode is running. *)
Theorem C47_exactly_once : forall C rec size a nr os tr a',
  image (a_mem a) -> matches C (a_mem a) -> get_mode (a_mem a) = 3 -> get_nr (a_mem a) = nr -> 1 <= nr <= 127 ->
  aruns C rec size a os = (tr, a') ->
  (Forall (fun e => ~ started e) tr /\ frames tr = [] /\ a_mem a' = a_mem a) \/
  (exists tr1 e tr2, tr = tr1 ++ e :: tr2 /\ Forall (fun e => ~ started e) tr1 /\ started e /\
     frames tr1 = [] /\ snd e = [XFrame (ctl_id nr) [0x1B; 0; 0; 0; 0; 0; 0; 0]] /\ frames tr2 = [] /\
     get_mode (a_mem a') = 4 /\ matches C (a_mem a')).
Proof.
  intros C rec size a nr os tr a' I M H Nr B R.
  replace (ctl_id nr) with (ident_of CtrlTx nr 0); [exact (run_ackn C rec size nr os a (conj (proj1 I) M) H Nr tr a' R)|].
  unfold ident_of, can_ident, ctl_id, u16. cbn [class_base has_objects]. lia.
Qed.
Print Assumptions C47_exactly_once.

(** C47: with any other stored mode, and after a bad checksum, no start ever sends an acknowledge. *)
Theorem C47_not_pending : forall C rec size a b rc os, image (a_mem a) ->
  (~ matches C (a_mem a) \/ get_mode (a_mem a) <> 3) ->
  frames (fst (aruns C rec size a (ABoot b rc :: os))) = [].
Proof.
  intros C rec size a b rc os I H.
  destruct (aruns C rec size a (ABoot b rc :: os)) as [tr a'] eqn:R. cbn [fst].
  cbn [aruns astep] in R. destruct (lcsa_init C b rc a) as [r a1] eqn:E.
  destruct (aruns C rec size a1 os) as [tr2 a2] eqn:R2. injection R as <- <-. cbn [frames flat_map snd app]. fold (frames tr2).
  assert (G : good C a1 /\ get_mode (a_mem a1) <> 3).
  { assert (A : a_mem a1 = do_op C (a_mem a) IInit).
    { unfold lcsa_init in E. destruct (_ || _ || _) in E; injection E as _ <-; reflexivity. }
    unfold good. rewrite A. split.
    - split; [unfold do_op; rewrite apply_length; apply I|]. apply do_op_matches; [apply I|right; reflexivity].
    - destruct (matches_dec C (a_mem a)) as [Q|Q].
      + destruct (init_keeps C _ (proj1 I) Q) as [K _]. rewrite K. destruct H as [H|H]; [contradiction|exact H].
      + destruct (init_resets C _ I Q) as [ (K & _) _]. rewrite K. discriminate. }
  pose proof (run_quiet C rec size os a1 (proj1 G) (proj2 G)) as [Q _]. rewrite R2 in Q. exact Q.
Qed.
Print Assumptions C47_not_pending.

(** C47: the acknowledge is sent by a start that put the controller into operation, at the baud rate of the download: with
    and without the reconnect feature, after an initialisation. *)
Theorem C47_operational : forall C rec size b rc o a, good C a -> get_mode (a_mem a) = 3 ->
  let a1 := snd (lcsa_init C b rc (reset size a)) in
  snd (lcsa_start C rec o a1) <> [] -> so_oper o = ERR_OK /\ a_startup a1 = get_baud (a_mem a).
Proof.
  intros C rec size b rc o a G H. destruct (boot_good C b rc (reset size a) G) as (st & u & E & K).
  destruct (K H) as [-> ->]. rewrite E. cbn [snd]. cbv zeta. intros F. split; [|reflexivity].
  destruct (start_ackn_mode C rec o (Api (a_mem a) LST_DOWNLOAD (get_baud (a_mem a)) (a_x (reset size a))) H)
    as [(r & s & _ & E2)|(x' & E2 & _)].
  - cbn [a_mem reset] in F. rewrite E2 in F. exfalso. apply F. reflexivity.
  - cbn [a_state] in E2. unfold start_head in E2. destruct rec.
    + destruct (N.eqb_spec (so_rinit o) ERR_OK) as [Z|Z]; [exact E2|]. cbn [fst] in E2. contradiction.
    + destruct (N.eqb_spec (so_baud o) ERR_OK) as [Z|Z]; [exact E2|]. cbn [fst] in E2. contradiction.
Qed.
Print Assumptions C47_operational.

Definition okS := SOuts 0 0 0 0.
Definition badS := SOuts 0 0x5001 0x5001 0.
Definition ackm : mem := do_ops crcX (do_op crcX blank IInit) [IComp (compX 10); IBaud 500; IMode 3].
Example C47_ex :
  let a := Api ackm LST_INIT 0 (xst_zero 16) in
  image (a_mem a) /\ matches crcX (a_mem a) /\ get_mode (a_mem a) = 3 /\ get_nr (a_mem a) = 10 /\
  map (fun e => snd e) (fst (aruns crcX false 16 a [ABoot 250 0; AStart badS; AStart okS; AStart okS; AReset; ABoot 250 0; AStart okS])) =
  [[]; []; [XFrame 0x625 [0x1B; 0; 0; 0; 0; 0; 0; 0]]; []; []; []; []] /\
  a_startup (snd (lcsa_init crcX 250 0 a)) = 500.
Proof.
  cbv zeta. cbn [a_mem]. split.
  { apply do_ops_image; [constructor; [apply compX_ok; reflexivity|repeat constructor]|]. apply do_op_image; [exact I|apply blank_image]. }
  split; [apply (C46_completed_partial crcX blank); [apply blank_image|constructor; [apply compX_ok; reflexivity|repeat constructor]]|].
  vm_compute. repeat split.
Qed.

(** C47, refuted when the power fails between the acknowledge and the update of the mode: the next start sends it again. *)
Theorem C47_power_loss_refuted : forall C rec size b rc a, image (a_mem a) -> matches C (a_mem a) ->
  get_mode (a_mem a) = 3 -> 1 <= get_nr (a_mem a) <= 127 ->
  let a1 := snd (lcsa_init C b rc (reset size a)) in
  let '(r1, a2, o1) := lcsa_start_cut C rec okS (Some 0%nat) a1 in
  let a3 := snd (lcsa_init C b rc (reset size a2)) in
  let '(r2, _, o2) := lcsa_start C rec okS a3 in
  o1 = [XFrame (ctl_id (get_nr (a_mem a))) [0x1B; 0; 0; 0; 0; 0; 0; 0]] /\ o2 = o1.
Proof.
  intros C rec size b rc a I M H B. cbv zeta.
  destruct (boot_good C b rc (reset size a) (conj (proj1 I) M)) as (st & u & E & K). destruct (K H) as [-> ->]. rewrite E. cbn [snd].
  assert (S : start_head rec okS LST_DOWNLOAD = (ERR_OK, LST_RUNNING)) by (destruct rec; reflexivity).
  unfold lcsa_start, lcsa_start_cut. cbn [a_state a_mem a_x a_startup reset]. rewrite S.
  change (ERR_OK =? ERR_OK) with true. cbv iota. rewrite H. change (3 =? MODE_ACKN) with true. cbv iota.
  destruct (ack_of_eq (get_nr (a_mem a)) (xst_zero size)) as [x1 A1]. rewrite A1.
  change (cut_op C 0 (a_mem a) (IMode MODE_RUNNING)) with (a_mem a).
  match goal with |- context [lcsa_init C b rc ?z] => destruct (boot_good C b rc z (conj (proj1 I) M)) as (st2 & u2 & E2 & K2) end.
  cbn [a_mem reset] in K2, E2. destruct (K2 H) as [-> ->]. rewrite E2. cbn [snd a_state a_mem a_x a_startup]. rewrite S.
  change (ERR_OK =? ERR_OK) with true. cbv iota. rewrite H. change (3 =? MODE_ACKN) with true. cbv iota.
  match goal with |- context [ack_of ?n ?x] => destruct (ack_of_eq n x) as [x2 A2]; rewrite A2 end.
  split; [|reflexivity]. do 2 f_equal. unfold ident_of, can_ident, ctl_id, u16. cbn [class_base has_objects]. lia.
Qed.
Print Assumptions C47_power_loss_refuted.

(** C58: without the reconnect feature a start reports success only when the baud rate was set and the controller is
    operational, and otherwise the code of the step that failed. *)
Theorem C58_start_result_partial : forall C o a, 
  let '(r, a', _) := lcsa_start C false o a in
  r = (if so_baud o =? 0 then so_oper o else so_baud o) /\ (r = 0 <-> so_baud o = 0 /\ so_oper o = 0) /\
  (r = 0 -> a_state a' = LST_RUNNING) /\ (r <> 0 -> a_state a' = a_state a).
Proof.
  intros C o a. unfold lcsa_start, lcsa_start_cut, start_head. change ERR_OK with 0.
  destruct (N.eqb_spec (so_baud o) 0) as [E|E].
  - destruct (N.eqb_spec (so_oper o) 0) as [E2|E2].
    + destruct (get_mode (a_mem a) =? MODE_ACKN).
      * destruct (ack_of_eq (get_nr (a_mem a)) (a_x a)) as [x' A]. rewrite A.
        split; [exact (eq_sym E2)|]. split; [split; auto|]. split; [reflexivity|]. intros Q. exfalso. apply Q. reflexivity.
      * split; [reflexivity|]. split; [split; auto; intros [_ X]; exact X|]. split; [reflexivity|]. intros Q. contradiction.
    + split; [reflexivity|]. split; [split; [intros X; split; assumption|intros [_ X]; exact X]|]. split; [contradiction|reflexivity].
  - destruct (N.eqb_spec (so_baud o) 0); [contradiction|]. split; [reflexivity|]. split; [split; [contradiction|intros [X _]; exact X]|].
    split; [contradiction|reflexivity].
Qed.
Print Assumptions C58_start_result_partial.
Example C58_start_ex : 
  fst (fst (lcsa_start crcX false badS (Api ackm LST_INIT 0 (xst_zero 16)))) = 0x5001 /\
  a_state (snd (fst (lcsa_start crcX false okS (Api ackm LST_INIT 0 (xst_zero 16))))) = LST_RUNNING.
Proof. vm_compute. split; reflexivity. Qed.

(** C58, refuted with the reconnect feature: the result of setting the baud rate is overwritten, so a start at a rate that
    could not be set reports success. *)
Theorem C58_reconnect_refuted : forall C a e, exists o, so_baud o = e /\
  fst (fst (lcsa_start C true o a)) = 0 /\ a_state (snd (fst (lcsa_start C true o a))) = LST_RUNNING.
Proof.
  intros C a e. exists (SOuts 0 e 0 0). split; [reflexivity|]. unfold lcsa_start, lcsa_start_cut, start_head.
  cbn [so_rinit so_baud so_oper so_listen]. change (0 =? ERR_OK) with true. cbv iota.
  destruct (a_state a =? LST_DOWNLOAD); change (0 =? ERR_OK) with true; cbv iota.
  all: destruct (get_mode (a_mem a) =? MODE_ACKN);
    [destruct (ack_of_eq (get_nr (a_mem a)) (a_x a)) as [x' A]; rewrite A|]; split; reflexivity.
Qed.
Print Assumptions C58_reconnect_refuted.

(** ** C67: the baud rate of the next start.  With intact information and a download under way (mode reboot, out or
    acknowledge) it is the stored one and the state is "download"; otherwise, and whenever the checksum does not match, it
    is the one the application passes, and the state does not change. *)
Definition under_way (mode : N) : Prop := In mode [0; 2; 3].
Theorem C67_baud_rate : forall C b rc a, image (a_mem a) ->
  let '(r, a') := lcsa_init C b rc a in
  r = rc /\
  (matches C (a_mem a) -> under_way (get_mode (a_mem a)) -> a_startup a' = get_baud (a_mem a) /\ a_state a' = LST_DOWNLOAD) /\
  (~ matches C (a_mem a) \/ ~ under_way (get_mode (a_mem a)) -> a_startup a' = b /\ a_state a' = a_state a).
Proof.
  intros C b rc a I. unfold lcsa_init, under_way, MODE_ACKN, MODE_OUT, MODE_REBOOT.
  set (m := do_op C (a_mem a) IInit).
  assert (A : matches C (a_mem a) -> m = a_mem a) by (intro M; apply (init_keeps C _ (proj1 I) M)).
  assert (B : ~ matches C (a_mem a) -> get_mode m = 4) by (intro M; apply (init_resets C _ I M)).
  clearbody m.
  destruct ((get_mode m =? 3) || (get_mode m =? 2) || (get_mode m =? 0)) eqn:K; cbn [a_startup a_state].
  - split; [reflexivity|]. split; [intros M _; rewrite (A M); split; reflexivity|]. intros [M|M].
    + rewrite (B M) in K. discriminate.
    + exfalso. destruct (matches_dec C (a_mem a)) as [Q|Q]; [rewrite (A Q) in K|rewrite (B Q) in K; discriminate].
      apply M. cbn [In]. apply orb_prop in K as [K|K]; [apply orb_prop in K as [K|K]|]; apply N.eqb_eq in K; rewrite K; tauto.
  - split; [reflexivity|]. split; [|intros _; split; reflexivity]. intros M U. exfalso. rewrite (A M) in K. cbn [In] in U.
    destruct U as [U|[U|[U|[]]]]; rewrite <- U in K; discriminate K.
Qed.
Print Assumptions C67_baud_rate.
(** The state survives no reset: after a reset and an initialisation the state is "download" exactly if the information is intact and a
    download is under way; otherwise it is "init". *)
Theorem C67_after_reset : forall C b rc size a, image (a_mem a) ->
  (matches C (a_mem a) /\ under_way (get_mode (a_mem a)) -> a_state (snd (lcsa_init C b rc (reset size a))) = LST_DOWNLOAD) /\
  (~ (matches C (a_mem a) /\ under_way (get_mode (a_mem a))) -> a_state (snd (lcsa_init C b rc (reset size a))) = LST_INIT).
Proof.
  intros C b rc size a I. pose proof (C67_baud_rate C b rc (reset size a) I) as H. destruct (lcsa_init C b rc (reset size a)) as [r a'].
  destruct H as (_ & H1 & H2). cbn [snd]. split.
  - intros [M U]. apply (H1 M U).
  - intros N. destruct (matches_dec C (a_mem a)) as [M|M]; [|apply H2; left; exact M].
    apply H2. right. intro U. apply N. split; [exact M|exact U].
Qed.
Print Assumptions C67_after_reset.
Example C67_ex : under_way (get_mode ackm) /\ a_startup (snd (lcsa_init crcX 250 0 (Api ackm LST_INIT 0 (xst_zero 16)))) = 500 /\
  a_startup (snd (lcsa_init crcX 250 0 (Api (do_op crcX ackm (IMode 4)) LST_INIT 0 (xst_zero 16)))) = 250 /\
  a_startup (snd (lcsa_init crcX 250 0 (Api (cut_op crcX 3 ackm (IBaud 125)) LST_INIT 0 (xst_zero 16)))) = 250.
Proof. split; [right; right; left; reflexivity|]. vm_compute. repeat split. Qed.
