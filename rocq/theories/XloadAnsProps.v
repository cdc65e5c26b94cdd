(** Answers to version and upload info requests, requests nobody handles, the announced block length, upload pacing:
    C63, C64, C65, C66, and more about C43. *)
From Verif Require Import Words WordsFacts Bits ErrModel ErrProofs NodeModel LookModel LookSpec LookProofs XBufModel XBufSpec XBufProofs AsyncSpec AsyncProofs XloadModel XloadSpec XloadProofs XloadRun XloadNames XloadProps.

(** ** C63 *)
Lemma version_answer_eq nr c s : 1 <= nr -> nr < 256 -> comp_ok c ->
  version_answer nr (c_index c) (c_crc c) (c_id c) s = Some (ERR_OK, s, [version_msg nr (c_index c) (c_crc c) (c_id c)]).
Proof.
  intros A B [I C D]. unfold version_answer. rewrite send_eq1 by assumption. rewrite be32_eq by exact D. unfold version_msg, two, four. cbn [app].
  rewrite shiftr_div. change (2 ^ 8) with 256. unfold u8. rewrite (N.mod_small (c_index c)) by lia. rewrite (N.mod_small (c_crc c / 256)) by lia. reflexivity.
Qed.
Lemma version_pre_eq size nr p s h rc st z s1 o : 1 <= nr -> nr < 256 -> nth (hidx HVersion) (x_hand s) None = Some h ->
  hrun size TVers p (set_vers s (set_cnr (x_vers s) nr)) = Some ((rc, st, z), s1, o) -> comp_ok (x_vers s1) -> rc < 65536 ->
  exists s', version_pre size nr p s = Some (rc, s', XCalled HVersion h (set_cnr (x_vers s) nr) :: o ++ version_reply nr rc st (x_vers s1)) /\
    (rc = 0 -> s' = set_vers s1 (clear_name (x_vers s1))) /\
    (rc <> 0 -> s' = set_prog (set_comp (set_vers s1 (clear_name (x_vers s1))) (clear_name (x_comp s1))) Idle).
Proof.
  intros A B HH E CO R. unfold version_pre. rewrite xbind_get, HH, xbind_mod. unfold call_handler. unfold xbind at 1. rewrite xbind_get. cbn [x_hand set_vers]. rewrite HH, xbind_observe.
  cbn [get_comp x_vers set_vers]. rewrite E. rewrite xbind_mod. unfold version_reply. change ERR_OK with 0.
  destruct (N.eqb_spec rc 0) as [Z|Z].
  - destruct (N.eq_dec rc 0); [|contradiction]. subst rc. destruct st.
    + rewrite xbind_get. change (c_index (x_vers (set_vers s1 (clear_name (x_vers s1))))) with (c_index (x_vers s1)).
      change (c_crc (x_vers (set_vers s1 (clear_name (x_vers s1))))) with (c_crc (x_vers s1)). change (c_id (x_vers (set_vers s1 (clear_name (x_vers s1))))) with (c_id (x_vers s1)).
      rewrite version_answer_eq by assumption. eexists. split; [reflexivity|]. split; [reflexivity|intro X; exfalso; exact (X eq_refl)].
    + unfold xret. eexists. split; [reflexivity|]. split; [reflexivity|intro X; exfalso; exact (X eq_refl)].
  - destruct (N.eq_dec rc 0); [contradiction|]. rewrite (xbind_some _ _ _ _ _ _ (term_eq nr rc _ A B R)). unfold xret. cbn [app]. eexists. split; [reflexivity|].
    split; [contradiction|reflexivity].
Qed.

(** a short version request: the registered handler is called with the requested component; then follows exactly one answer:
    what the handler left in the component, or the error it returned; none if the handler answers itself *)
Theorem C63_short_version : forall size pre s tab silent nr idx name p h rc st z s1 o es obs0,
  xl_run size pre (xst_zero size) = Some (es, s, obs0) -> first_reg HVersion pre = Some h ->
  listening tab silent nr -> 1 <= nr < 256 -> length name = 8%nat -> Forall name_char name ->
  let c := Comp nr (name ++ [0]) (c_crc (x_vers s)) (c_id (x_vers s)) idx (c_type (x_vers s)) in
  hrun size TVers p (set_vers s c) = Some ((rc, st, z), s1, o) -> comp_ok (x_vers s1) -> rc < 65536 ->
  exists s', async_rx size tab silent nr (0x10 :: idx :: pack6 name) p s = Some (rc, s', XCalled HVersion h c :: o ++ version_reply nr rc st (x_vers s1)).
Proof.
  intros size pre s tab silent nr idx name p h rc st z s1 o es obs0 RUN FR LI [N1 N2] L F c E CO R. pose proof (regs_kept _ _ _ _ _ RUN HVersion) as HH. rewrite FR in HH.
  destruct (rx_listening size tab silent nr (0x10 :: idx :: pack6 name) p s LI) as (pos & _ & ->). cbn [nth]. codeg 16. unfold version_short. rewrite xbind_mod.
  cbn [nth]. rewrite name6_pack by assumption.
  destruct (version_pre_eq size nr p (set_vers s (set_name (set_index (x_vers s) idx) (name ++ [0]))) h rc st z s1 o N1 N2 HH E CO R) as (s' & E' & _).
  exists s'. exact E'.
Qed.
Print Assumptions C63_short_version.
(** a long version request, two messages *)
Theorem C63_long_version : forall size pre s tab silent nr idx i2 name rest p h rc st z s1 o es obs0,
  xl_run size pre (xst_zero size) = Some (es, s, obs0) -> first_reg HVersion pre = Some h ->
  listening tab silent nr -> 1 <= nr < 256 -> length name = 8%nat ->
  let c := Comp nr (name ++ [0]) (c_crc (x_vers s)) (c_id (x_vers s)) idx (c_type (x_vers s)) in
  hrun size TVers p (set_vers s c) = Some ((rc, st, z), s1, o) -> comp_ok (x_vers s1) -> rc < 65536 ->
  exists s', xl_run size [LRx tab silent nr (0x11 :: idx :: firstn 6 name) nothing; LRx tab silent nr (0x12 :: i2 :: skipn 6 name ++ rest) p] s =
    Some ([ERR_OK; rc], s', XCalled HVersion h c :: o ++ version_reply nr rc st (x_vers s1)).
Proof.
  intros size pre s tab silent nr idx i2 name rest p h rc st z s1 o es obs0 RUN FR LI [N1 N2] L c E CO R. pose proof (regs_kept _ _ _ _ _ RUN HVersion) as HH. rewrite FR in HH.
  cbn [xl_run xl_step].
  destruct (rx_listening size tab silent nr (0x11 :: idx :: firstn 6 name) nothing s LI) as (q & _ & X). cbn [nth] in X. code X 17.
  unfold version_long1 in X. rewrite xbind_mod in X. unfold xret in X. rewrite (xbind_some _ _ _ _ _ _ X). clear X.
  match goal with |- context [xbind (xbind (async_rx _ _ _ _ ?d ?p) _) _ ?st] => destruct (rx_listening size tab silent nr d p st LI) as (q2 & _ & X) end.
  cbn [nth] in X. code X 18. unfold version_long2 in X. rewrite xbind_mod in X. cbn [nth] in X.
  do 8 (destruct name as [|? name]; [discriminate L|]). destruct name; [|discriminate L].
  match type of X with _ = version_pre _ _ _ ?st => destruct (version_pre_eq size nr p st h rc _ z s1 o N1 N2 HH E CO R) as (s' & E' & _) end.
  rewrite E' in X. exists s'. unfold xbind, xret. cbn [nth] in X |- *. rewrite X. cbn [app]. rewrite !app_nil_r. reflexivity.
Qed.
Print Assumptions C63_long_version.
(** an upload info request: the size the handler reports *)
Theorem C63_upload_info : forall size pre s tab silent nr idx name p h rc st z s1 o es obs0,
  xl_run size pre (xst_zero size) = Some (es, s, obs0) -> first_reg HInfo pre = Some h ->
  listening tab silent nr -> 1 <= nr < 256 -> length name = 8%nat -> Forall name_char name ->
  let c := Comp nr (name ++ [0]) (c_crc (x_comp s)) (c_id (x_comp s)) idx (c_type (x_comp s)) in
  hrun size TComp p (set_comp s c) = Some ((rc, st, z), s1, o) -> c_index (x_comp s1) < 256 -> rc < 65536 -> z < 4294967296 ->
  exists s', async_rx size tab silent nr (0x50 :: idx :: pack6 name) p s = Some (rc, s', XCalled HInfo h c :: o ++ info_reply nr rc st (x_comp s1) z).
Proof.
  intros size pre s tab silent nr idx name p h rc st z s1 o es obs0 RUN FR LI [N1 N2] L F c E CO R Z. pose proof (regs_kept _ _ _ _ _ RUN HInfo) as HH. rewrite FR in HH.
  destruct (rx_listening size tab silent nr (0x50 :: idx :: pack6 name) p s LI) as (pos & _ & ->). cbn [nth]. codeg 80. unfold info_short. rewrite xbind_mod, xbind_get.
  cbn [x_hand set_comp]. rewrite HH, xbind_mod. cbn [nth]. rewrite name6_pack by assumption. unfold call_handler. unfold xbind at 1. rewrite xbind_get. cbn [x_hand set_comp]. rewrite HH, xbind_observe.
  cbn [get_comp x_comp set_comp].
  match goal with |- context [hrun size TComp p ?st0] => change (hrun size TComp p st0) with (hrun size TComp p (set_comp s c)) end. rewrite E. rewrite xbind_mod.
  match goal with |- context [XCalled HInfo h ?c0] => change c0 with c end.
  unfold info_reply. change ERR_OK with 0. destruct (N.eqb_spec rc 0) as [Q|Q].
  - destruct (N.eq_dec rc 0); [|contradiction]. subst rc. destruct st; [|unfold xret; eexists; reflexivity].
    rewrite xbind_get. unfold info_answer. rewrite send_eq1 by assumption. rewrite be32_eq by exact Z.
    change (c_index (x_comp (set_comp s1 (clear_name (x_comp s1))))) with (c_index (x_comp s1)). unfold u8. rewrite N.mod_small by exact CO. eexists. reflexivity.
  - destruct (N.eq_dec rc 0); [contradiction|]. rewrite (xbind_some _ _ _ _ _ _ (term_eq nr rc _ N1 N2 R)). unfold xret. cbn [app]. eexists. reflexivity.
Qed.
Print Assumptions C63_upload_info.
(** a request for which no handler was registered (by any history, whatever other handlers there are) is answered with the
    error "unknown component" and nothing else *)
Theorem C63_no_handler : forall size pre s tab silent nr d p k es obs0,
  xl_run size pre (xst_zero size) = Some (es, s, obs0) -> first_reg k pre = None ->
  listening tab silent nr -> 1 <= nr < 256 -> asks (nth 0 d 0) = Some k -> x_prog s = Idle ->
  exists s', async_rx size tab silent nr d p s = Some (E_UNKNOWN_COMPONENT, s', [term_msg nr E_UNKNOWN_COMPONENT]) /\ x_prog s' = Idle.
Proof.
  intros size pre s tab silent nr d p k es obs0 RUN FR LI [N1 N2] AS HP. pose proof (regs_kept _ _ _ _ _ RUN k) as HH. rewrite FR in HH.
  destruct (rx_listening size tab silent nr d p s LI) as (pos & _ & ->). cbv zeta.
  match goal with |- context [?x =? 16] => set (m := x) end. assert (AS' : asks m = Some k) by exact AS. clear AS. rename AS' into AS. clearbody m.
  assert (T : forall s0, xbind (termination nr E_UNKNOWN_COMPONENT) (fun _ => xret E_UNKNOWN_COMPONENT) s0 =
                         Some (E_UNKNOWN_COMPONENT, set_prog (set_comp s0 (clear_name (x_comp s0))) Idle, [term_msg nr E_UNKNOWN_COMPONENT])).
  { intro s0. rewrite (xbind_some _ _ _ _ _ _ (term_eq nr E_UNKNOWN_COMPONENT s0 N1 N2 ltac:(reflexivity))). reflexivity. }
  assert (VP : forall s0 p0, nth (hidx HVersion) (x_hand s0) None = None -> exists s', version_pre size nr p0 s0 = Some (E_UNKNOWN_COMPONENT, s', [term_msg nr E_UNKNOWN_COMPONENT]) /\ x_prog s' = Idle).
  { intros s0 p0 Q. unfold version_pre. rewrite xbind_get, Q, xbind_ret. unfold call_handler. unfold xbind at 1. rewrite xbind_get, Q. unfold xret at 1.
    rewrite xbind_mod. change (E_UNKNOWN_COMPONENT =? ERR_OK) with false. cbv iota. rewrite T. eexists. split; reflexivity. }
  assert (CASES : (m = 0x10 \/ m = 0x12) /\ k = HVersion \/ m = 0x50 /\ k = HInfo \/ m = 0x17 /\ k = HEnd \/ m = 0x14 /\ k = HStartReq \/ m = 0x1E /\ k = HUpStart).
  { clear -AS. unfold asks in AS.
    repeat match type of AS with context [m =? ?n] => destruct (N.eqb_spec m n); [cbn [orb] in AS; injection AS as <-; tauto|] end. discriminate AS. }
  destruct CASES as [[[->| ->] ->]|[[-> ->]|[[-> ->]|[[-> ->]|[-> ->]]]]].
  - codeg 16. unfold version_short. rewrite xbind_mod. apply VP. exact HH.
  - codeg 18. unfold version_long2. rewrite xbind_mod. apply VP. exact HH.
  - codeg 80. unfold info_short. rewrite xbind_mod, xbind_get. cbn [x_hand set_comp]. rewrite HH, xbind_ret. unfold call_handler. unfold xbind at 1. rewrite xbind_get. cbn [x_hand set_comp]. rewrite HH.
    unfold xret at 1. rewrite xbind_mod. change (E_UNKNOWN_COMPONENT =? ERR_OK) with false. cbv iota. rewrite T. eexists. split; reflexivity.
  - codeg 23. unfold dload_end, call_handler. unfold xbind at 1. rewrite xbind_get, HH. unfold xret at 1. change (E_UNKNOWN_COMPONENT =? ERR_OK) with false. cbv iota. rewrite T. eexists. split; reflexivity.
  - codeg 20. unfold start_request2. rewrite xbind_get, HP. unfold xbind at 1. rewrite !xbind_mod. unfold call_handler. unfold xbind at 1. rewrite xbind_get. cbn [x_hand set_comp set_prog]. rewrite HH.
    unfold xret at 1 2. cbn [fst]. change (E_UNKNOWN_COMPONENT =? ERR_OK) with false. cbv iota. rewrite T. eexists. split; reflexivity.
  - codeg 30. unfold ul_request2. rewrite xbind_get, HP. unfold xbind at 1. rewrite !xbind_mod. unfold call_handler. unfold xbind at 1. rewrite xbind_get. cbn [x_hand set_comp set_prog set_pace]. rewrite HH.
    unfold xret at 1 2. cbn [fst]. change (E_UNKNOWN_COMPONENT =? ERR_OK) with false. cbv iota. rewrite T. eexists. split; reflexivity.
Qed.
Print Assumptions C63_no_handler.
(** the handler fills in checksum 0x1234 and identification 0x01020304; the error 0x5034 of another one; the size 0x010203 *)
Definition filling : hprog := HCall AGetComp (fun r => match r with AComp c => HCall (ASetComp (set_crcid c 0x1234 0x01020304)) (fun _ => HFin ERR_OK true 0) | _ => HFin 1 true 0 end).
Example C63_case : 
  (exists s', async_rx 64 tab41 sil41 10 (0x10 :: 3 :: pack6 name42) filling (st41 64) =
    Some (ERR_OK, s', [XCalled HVersion 4 (Comp 10 (name42 ++ [0]) 0 0 3 (repeat 0 5)); XFrame 0x625 [0x18; 3; 0x12; 0x34; 1; 2; 3; 4]])) /\
  (exists s', async_rx 64 tab41 sil41 10 (0x10 :: 3 :: pack6 name42) (HFin 0x5034 true 0) (st41 64) =
    Some (0x5034, s', [XCalled HVersion 4 (Comp 10 (name42 ++ [0]) 0 0 3 (repeat 0 5)); XFrame 0x625 [0x1C; 0x75; 0; 0; 0x34; 0; 0; 0x75]])) /\
  (exists s', async_rx 64 tab41 sil41 10 (0x50 :: 3 :: pack6 name42) (HFin ERR_OK true 0x010203) (st41 64) =
    Some (ERR_OK, s', [XCalled HInfo 7 (Comp 10 (name42 ++ [0]) 0 0 3 (repeat 0 5)); XFrame 0x625 [0x53; 3; 0; 1; 2; 3; 0; 0]])) /\
  (exists s', async_rx 64 tab41 sil41 10 (0x10 :: 3 :: pack6 name42) nothing (xst_zero 64) = Some (E_UNKNOWN_COMPONENT, s', [XFrame 0x625 [0x1C; 0x75; 0; 0; 52; 0; 0; 0x75]])).
Proof. repeat split; eexists; vm_compute; reflexivity. Qed.

(** ** C64: a control message to a module that is not in the table or silent has no effect and no answer, whatever it asks
    for: with it and without it every history has the same final state and the same observations. *)
Theorem C64_no_effect : forall size a b s tab silent nr d p, ~ listening tab silent nr ->
  effect (xl_run size (a ++ LRx tab silent nr d p :: b) s) = effect (xl_run size (a ++ b) s).
Proof.
  intros size a b s tab silent nr d p NL. rewrite !xl_run_app. destruct (xl_run size a s) as [[[e1 s1] o1]|]; [|reflexivity].
  cbn [xl_run xl_step]. unfold xbind, xret. rewrite rx_deaf by exact NL. destruct (xl_run size b s1) as [[[e2 s2] o2]|]; [|reflexivity].
  cbn [effect app]. rewrite app_nil_r. reflexivity.
Qed.
Print Assumptions C64_no_effect.
(** nor has a message with a code nobody knows, which is reported as an unknown command when the module listens *)
Theorem C64_unknown_code : forall size a b s tab silent nr d p, ~ In (nth 0 d 0) known_codes ->
  effect (xl_run size (a ++ LRx tab silent nr d p :: b) s) = effect (xl_run size (a ++ b) s) /\
  (listening tab silent nr -> exists s', async_rx size tab silent nr d p s = Some (E_UNKNOWN_COMMAND, s', [])).
Proof.
  intros size a b s tab silent nr d p NC.
  assert (K : forall s0, listening tab silent nr -> async_rx size tab silent nr d p s0 = Some (E_UNKNOWN_COMMAND, s0, [])).
  { intros s0 LI. destruct (rx_listening size tab silent nr d p s0 LI) as (q & _ & ->). cbv zeta.
    match goal with |- context [?x =? 16] => set (k := x) end. assert (C : ~ In k known_codes) by exact NC. clearbody k. unfold known_codes in C. cbn [In] in C.
    repeat match goal with |- context [k =? ?n] => let E := fresh in destruct (k =? n) eqn:E; [exfalso; apply C; apply N.eqb_eq in E; rewrite E; repeat (first [left; reflexivity|right])|clear E] end.
    reflexivity. }
  split; [|intro LI; exists s; apply K, LI].
  assert (DEC : listening tab silent nr \/ ~ listening tab silent nr).
  { destruct (by_nr tab silent nr) as [(q & FQ & E)|[NO E]].
    - destruct (N.eq_dec (nth q silent 0) SILENT) as [Z|Z]; [right|left; exists q; auto]. intros (q' & FQ' & Z'). assert (q = q') as -> by (eapply first_unique; eauto). congruence.
    - right. intros (q' & (L & FQ' & _) & _). exact (NO q' L FQ'). }
  destruct DEC as [LI|NL]; [|apply C64_no_effect, NL].
  rewrite !xl_run_app. destruct (xl_run size a s) as [[[e1 s1] o1]|]; [|reflexivity].
  cbn [xl_run xl_step]. unfold xbind, xret. rewrite K by exact LI. destruct (xl_run size b s1) as [[[e2 s2] o2]|]; [|reflexivity].
  cbn [effect app]. rewrite app_nil_r. reflexivity.
Qed.
Print Assumptions C64_unknown_code.
(** module 9 of the example is silent, module 11 is not there *)
Example C64_case : ~ listening tab41 sil41 9 /\ ~ listening tab41 sil41 11 /\ ~ In (nth 0 [0x99; 1; 2; 3; 4; 5; 6; 7] 0) known_codes /\
  async_rx 64 tab41 sil41 9 (0x10 :: 3 :: pack6 name42) filling (st41 64) = Some (ERR_OK, st41 64, []).
Proof.
  split; [|split; [|split; [|vm_compute; reflexivity]]].
  - intros (q & (L & F & M) & S). destruct q as [|[|q]]; [apply S; reflexivity|discriminate F|cbn in L; lia].
  - intros (q & (L & F & M) & S). destruct q as [|[|q]]; [discriminate F|discriminate F|cbn in L; lia].
  - cbn. intros H. repeat destruct H as [H|H]; try discriminate; exact H.
Qed.

Lemma hi16_eq m : m < 65536 -> hi16 m = m / 256.
Proof.
  intro H. unfold hi16. change 65280 with (255 * 2 ^ 8). rewrite land_shifted, land_255, shiftr_div. change (2 ^ 8) with 256. rewrite N.div_mul by lia. unfold u8. lia.
Qed.
(** ** C65: li_can_slv_dload_start, called by the application.  A successful handler is followed by the start acknowledge, and
    every block of up to the announced number of bytes, filled up to whole messages, fits into the buffer even if the
    application left fifty bytes of the block before in it.  A failing one is followed by the termination message. *)
Theorem C65_announced : forall size s c delay p h rc st z s1 o, (56 <= size)%nat -> N.of_nat size < 65536 -> delay < 256 ->
  nth (hidx HStart) (x_hand s) None = Some h ->
  hrun size TOwn p (set_prog (set_own s c) InProgress) = Some ((rc, st, z), s1, o) -> 1 <= c_nr (x_own s1) < 256 -> rc < 65536 ->
  exists s' reply, xl_step size (LStart c delay p) s = Some (rc, s', XCalled HStart h c :: o ++ [reply]) /\
   (rc <> 0 -> reply = term_msg (c_nr (x_own s1)) rc /\ x_prog s' = Idle) /\
   (rc = 0 -> exists n, reply = start_msg (c_nr (x_own s1)) n delay /\ n + 56 = N.of_nat size /\
      forall b (l : list byte), blk_ok b -> N.of_nat (length (b_bytes b)) <= n -> (length (b_fill b) < 7)%nat -> (length l <= 50)%nat ->
        (length l + length (b_bytes b) + length (b_fill b) <= size)%nat).
Proof.
  intros size s c delay p h rc st z s1 o Z0 Z1 D HH E [N1 N2] R. cbn [xl_step]. rewrite xbind_mod. unfold dload_start. rewrite xbind_mod. unfold call_handler. unfold xbind at 1. rewrite xbind_get.
  cbn [x_hand set_prog set_own]. rewrite HH, xbind_observe. cbn [get_comp x_own set_prog set_own]. rewrite E. cbn [fst]. rewrite xbind_get. change ERR_OK with 0.
  destruct (N.eqb_spec rc 0) as [Q|Q].
  - subst rc. unfold start_ackn. rewrite !xbind_mod. rewrite send_eq1 by assumption. eexists; eexists. split; [reflexivity|]. split; [intro X; exfalso; exact (X eq_refl)|].
    intros _. exists (N.of_nat size - 56). split; [|split; [lia|intros; lia]]. unfold start_msg, two. cbn [app].
    rewrite hi16_eq by lia. rewrite land_255. unfold u8. rewrite N.mod_mod by lia. rewrite (N.mod_small delay) by exact D. reflexivity.
  - rewrite (xbind_some _ _ _ _ _ _ (term_eq _ rc _ N1 N2 R)). unfold xret. cbn [app]. eexists; eexists. split; [reflexivity|]. split; [|contradiction].
    intros _. split; reflexivity.
Qed.
Print Assumptions C65_announced.
Example C65_case : exists s', xl_step 300 (LStart comp42 5 nothing) (match xl_run 300 [LReg HStart (Some 9)] (xst_zero 300) with Some (_, s, _) => s | None => xst_zero 300 end) =
  Some (ERR_OK, s', [XCalled HStart 9 comp42; XFrame 0x625 [0x19; 0; 244; 5; 0; 0; 0; 0]]).
Proof. eexists. vm_compute. reflexivity. Qed.

(** ** C66: pacing of uploads.  With a clock that does not go back and does not wrap, [n] data messages are sent within one
    call only if at least [n * (delay + 1)] ticks pass during the call. *)
Lemma count_cons o l : data_count (o :: l) = (if is_data o then 1 else 0) + data_count l.
Proof. unfold data_count. cbn [filter]. destruct (is_data o); cbn [length]; lia. Qed.
Lemma count_app a b : data_count (a ++ b) = data_count a + data_count b.
Proof. unfold data_count. rewrite filter_app, app_length. lia. Qed.
Lemma mono_tail x l : monotone (x :: l) -> monotone l.
Proof. intros M i j H. apply (M (S i) (S j)). cbn [length]. lia. Qed.
Lemma mono_last l x : monotone (x :: l) -> x <= last l x.
Proof.
  intros M. destruct (@exists_last _ (x :: l) ltac:(discriminate)) as (i & y & E).
  assert (LE : last (x :: l) 0 = y) by (rewrite E; apply last_last).
  replace (last l x) with y by (rewrite <- LE; clear; destruct l as [|a l]; [reflexivity|]; cbn; revert a; induction l as [|b l IH]; intros a; [reflexivity|]; apply (IH b)).
  assert (N : y = nth (length l) (x :: l) 0).
  { rewrite E. assert (L : length (i ++ [y]) = S (length l)) by (rewrite <- E; reflexivity). rewrite app_length in L. cbn in L. replace (length l) with (length i) by lia. rewrite app_nth2, Nat.sub_diag by lia. reflexivity. }
  rewrite N. apply (M 0%nat (length l)). cbn [length]. lia.
Qed.
Lemma mono_skip x y l : monotone (x :: y :: l) -> monotone (x :: l).
Proof.
  intros M i j H. destruct i as [|i], j as [|j]; cbn [length] in H; try lia; cbn [nth].
  - apply (M 0%nat (S (S j))). cbn [length]. lia. - apply (M (S (S i)) (S (S j))). cbn [length]. lia.
Qed.
Lemma last_cons {A} (l : list A) : forall y d, last (y :: l) d = last l y.
Proof. induction l as [|a l IH]; intros y d; [reflexivity|]. change (last (y :: a :: l) d) with (last (a :: l) d). rewrite IH. symmetry. apply IH. Qed.
Lemma pace_loop data len : forall n ticks, (length ticks <= n)%nat -> forall msg old s b s' obs,
  monotone (old :: ticks) -> last ticks old + x_delay s < 4294967296 ->
  ul_loop data len msg old ticks s = Some (b, s', obs) -> data_count obs * (x_delay s + 1) + old <= last ticks old.
Proof.
  induction n as [|n IH]; intros [|now ticks] LT msg old s b s' obs M W H; cbn [length] in LT; try lia; cbn [ul_loop] in H.
  1-2: injection H as <- <- <-; unfold data_count; cbn; lia.
  rewrite last_cons in W |- *. pose proof (mono_last _ _ (mono_tail _ _ M)) as ML. pose proof (M 0%nat 1%nat ltac:(cbn [length]; lia)) as M01. cbn [nth] in M01.
  rewrite xbind_get in H. destruct (N.ltb_spec (u32 (old + x_delay s)) now) as [T|T].
  - unfold u32 in T. rewrite N.mod_small in T by lia.
    unfold xsend in H. unfold xbind at 1 in H. unfold xbind at 1 in H. cbn [xobserve xret] in H. rewrite xbind_mod, xbind_get in H.
    cbn [x_bytes set_cnts] in H. destruct (x_bytes s <? len) eqn:EB.
    + destruct ticks as [|now2 ticks].
      * cbn [xret] in H. injection H as <- <- <-. rewrite count_cons. cbn [is_data app]. change (21 =? 21) with true. unfold data_count. cbn. lia.
      * destruct (fill 7 data len (x_bytes s)) as [[m c]|]; [|discriminate]. rewrite xbind_mod in H.
        match type of H with match ?m0 with _ => _ end = _ => destruct m0 as [[[b2 s2] o2]|] eqn:EL; [|discriminate] end. injection H as <- <- <-.
        apply (IH ticks ltac:(cbn in LT; lia)) in EL; [|exact (mono_tail _ _ (mono_tail _ _ M))|cbn [x_delay set_cnts]; rewrite last_cons in W; exact W].
        cbn [x_delay set_cnts] in EL. rewrite last_cons. pose proof (mono_tail _ _ M 0%nat 1%nat ltac:(cbn [length]; lia)) as M12. cbn [nth] in M12.
        cbn [app]. rewrite count_cons. cbn [is_data]. change (21 =? 21) with true. cbv iota. lia.
    + unfold ul_block_end, xsend, xbind, xret, xget, xobserve in H. cbn [app] in H.
      assert (C : obs = [XFrame (ident_of CtrlTx (c_nr (x_comp s)) 0) (21 :: msg);
                         XFrame (ident_of CtrlTx (c_nr (x_comp s)) 0) [22; hi16 (x_bytes s); u8 (N.land (x_bytes s) 255); hi16 (u16 (x_objs s + 1)); u8 (N.land (u16 (x_objs s + 1)) 255); 0; 0; 0]]).
      { destruct ticks; injection H as _ _ <-; reflexivity. }
      rewrite C, !count_cons. cbn [is_data]. change (21 =? 21) with true. change (22 =? 21) with false. unfold data_count. cbn [filter length]. cbv iota. lia.
  - apply (IH ticks ltac:(lia)) in H; [| |].
    + destruct ticks as [|x t]; [cbn in *; lia|]. rewrite last_cons in *. exact H.
    + exact (mono_skip _ _ _ M).
    + destruct ticks as [|x t]; [cbn in *; lia|]. rewrite !last_cons in *. exact W.
Qed.
Lemma pace_upload data len t0 ticks s b s' obs : monotone (t0 :: ticks) -> last ticks t0 + x_delay s < 4294967296 ->
  upload data len (t0 :: ticks) s = Some (b, s', obs) -> data_count obs * (x_delay s + 1) + t0 <= last ticks t0.
Proof.
  intros M W H. unfold upload in H. rewrite xbind_mod, xbind_get in H. destruct (fill 7 data len _) as [[m c]|]; [|discriminate]. rewrite xbind_mod in H.
  apply (pace_loop data len (length ticks) ticks (Nat.le_refl _)) in H; [exact H|exact M|exact W].
Qed.
Theorem C66_call_partial : forall data len t0 ticks s b s' obs, monotone (t0 :: ticks) -> last ticks t0 + x_delay s < 4294967296 ->
  upload data len (t0 :: ticks) s = Some (b, s', obs) -> data_count obs * (x_delay s + 1) <= last ticks t0 - t0.
Proof. intros data len t0 ticks s b s' obs M W H. apply pace_upload in H; [lia|exact M|exact W]. Qed.
Print Assumptions C66_call_partial.
(** the delay is the one of the request: the handler of an upload request sends its block *)
Theorem C66_request_partial : forall size tab silent nr name l2 m1 m2 delay data len t0 ticks rest t s h es s' o,
  listening tab silent nr -> x_prog s = Idle -> nth (hidx HUpStart) (x_hand s) None = Some h ->
  monotone (t0 :: ticks) -> last ticks t0 + delay < 4294967296 ->
  xl_run size [LRx tab silent nr (0x1D :: name) nothing;
               LRx tab silent nr (0x1E :: l2 :: m1 :: m2 :: delay :: rest) (HCall (AUpload data len (t0 :: ticks)) (fun _ => HFin ERR_OK t 0))] s = Some (es, s', o) ->
  data_count o * (delay + 1) <= last ticks t0 - t0.
Proof.
  intros size tab silent nr name l2 m1 m2 delay data len t0 ticks rest t s h es s' o LI HP HH M W H. cbn [xl_run xl_step] in H.
  apply xbind_inv in H as (e1 & s1 & o1 & o2 & E & H & ->). apply xbind_inv in H as (e2 & s2 & o3 & o4 & E2 & H & ->). injection H as <- <- <-.
  apply xbind_inv in E2 as (e3 & s3 & o5 & o6 & E2 & H & ->). injection H as <- <- <-. rewrite !app_nil_r.
  destruct (rx_listening size tab silent nr (0x1D :: name) nothing s LI) as (q & _ & X). rewrite X in E. clear X. cbn [nth] in E. code E 29.
  unfold ul_request1, start_request1 in E. rewrite !xbind_mod, xbind_get in E. cbn [x_prog set_comp set_cnts] in E. rewrite HP, xbind_mod in E. injection E as <- <- <-.
  match type of E2 with async_rx _ _ _ _ ?d ?p ?st = _ => destruct (rx_listening size tab silent nr d p st LI) as (q2 & _ & X); rewrite X in E2; clear X end.
  cbn [nth] in E2. code E2 30. unfold ul_request2 in E2. rewrite xbind_get in E2. cbn [x_prog set_comp set_cnts] in E2. rewrite HP in E2.
  apply xbind_inv in E2 as (rc & s4 & o7 & o8 & E2 & H & ->). rewrite !xbind_mod in E2. apply xbind_inv in E2 as (r & s5 & o9 & o10 & E2 & H2 & ->). injection H2 as <- <- <-.
  unfold call_handler in E2. rewrite xbind_get in E2. cbn [x_hand set_pace set_comp set_prog set_cnts] in E2. rewrite HH, xbind_observe in E2.
  match type of E2 with match ?m with _ => _ end = _ => destruct m as [[[b s6] o11]|] eqn:ER; [|discriminate] end. injection E2 as <- <- <-.
  cbn [hrun] in ER. apply xbind_inv in ER as (a & s7 & o12 & o13 & ER & EF & ->). injection EF as <- <- <-.
  cbn [acall_run] in ER. apply xbind_inv in ER as (ok & s8 & o14 & o15 & ER & EF & ->). destruct ok; [|discriminate]. injection EF as <- <- <-.
  apply pace_upload in ER; [|exact M|exact W]. cbn [x_delay set_pace nth] in ER.
  cbn [fst] in H. change (ERR_OK =? ERR_OK) with true in H. cbv iota in H. injection H as <- <- <-. rewrite !app_nil_r. cbn [app].
  rewrite count_cons. cbn [is_data]. lia.
Qed.
Print Assumptions C66_request_partial.
(** Refuted where the clock wraps: if the delay reaches beyond the end of the clock range, the message is sent at once,
    even if the clock stands still. *)
Theorem C66_wrap_refuted : forall data nr t s, (length data <= 7)%nat -> 1 <= nr -> nr < 256 -> c_nr (x_comp s) = nr -> x_bytes s = 0 ->
  t < 4294967296 -> 4294967296 <= t + x_delay s -> x_delay s < 256 ->
  exists s', upload data (N.of_nat (length data)) [t; t; t] s = Some (true, s', up_frames nr data).
Proof.
  intros data nr t s L N1 N2 HN HB T W D.
  assert (E : exists s' o, upload data (N.of_nat (length data)) [t; t; t] s = Some (true, s', o)).
  { unfold upload. rewrite xbind_mod, xbind_get. cbn [x_bytes set_cnts]. rewrite HB. change 0 with (N.of_nat 0). rewrite fill_spec by lia. rewrite xbind_mod. cbn [ul_loop]. rewrite xbind_get. cbn [x_delay set_cnts].
    replace (u32 (t + x_delay s) <? t) with true by (symmetry; apply N.ltb_lt; unfold u32; lia).
    unfold xsend, ul_block_end, xbind, xobserve, xret, xmod, xget. cbn [x_bytes set_cnts x_objs x_comp].
    replace (N.of_nat (Nat.min (0 + 7) (length data)) <? N.of_nat (length data)) with false by (symmetry; apply N.ltb_ge; lia). do 2 eexists. reflexivity. }
  destruct E as (s' & o & E). exists s'. pose proof E as E2. apply (upload_spec _ _ _ nr) in E2; [|lia|assumption..]. destruct E2 as (-> & _). exact E.
Qed.
Print Assumptions C66_wrap_refuted.
(** two messages, delay 2: six ticks *)
Example C66_case : monotone [0; 1; 2; 3; 3; 4; 5; 6; 6] /\
  exists es s' c, xl_run 32 [LRx tab41 sil41 10 [0x1D; 1; 2; 3; 4; 5; 6; 7] nothing;
     LRx tab41 sil41 10 [0x1E; 8; 0; 16; 2; 0; 0; 0] (up44 [1; 2; 3; 4; 5; 6; 7; 8; 9] [0; 1; 2; 3; 3; 4; 5; 6; 6])] (st41 32) =
   Some (es, s', [XCalled HUpStart 5 c; XFrame 0x625 [0x15; 1; 2; 3; 4; 5; 6; 7]; XFrame 0x625 [0x15; 8; 9; 0; 0; 0; 0; 0]; XFrame 0x625 [0x16; 0; 9; 0; 2; 0; 0; 0]]).
Proof.
  split; [|do 3 eexists; vm_compute; reflexivity]. intros i j H. cbn [length] in H.
  do 9 (destruct j as [|j]; [do 9 (destruct i as [|i]; [first [exfalso; lia|vm_compute; discriminate]|]); lia|]). lia.
Qed.

(** ** C43, continued.  Version requests that are answered with success, anywhere between the messages of a download, in any
    number and together with unrelated messages: apart from their own handler calls and answers nothing changes. *)
Lemma version_only_run size p : version_only p -> forall s, named s ->
  exists s1 e z, hrun size TVers p s = Some ((ERR_OK, e, z), s1, []) /\ exists v, s1 = set_vers s v.
Proof.
  induction 1 as [e z|k H IH|c k L H IH]; intros s NM0; cbn [hrun].
  - exists s, e, z. split; [reflexivity|]. exists (x_vers s). destruct s; reflexivity.
  - unfold xbind. cbn [acall_run]. rewrite xbind_get. unfold xret. cbn [get_comp]. destruct (IH (x_vers s) (proj1 (proj2 NM0)) s NM0) as (s1 & e & z & E & V). rewrite E. exists s1, e, z. split; [reflexivity|exact V].
  - unfold xbind. cbn [acall_run]. rewrite L. change (9 =? 9)%nat with true. cbv iota. rewrite xbind_mod. unfold xret. cbn [put_comp].
    destruct (IH (set_vers s c)) as (s1 & e & z & E & v & ->); [destruct NM0 as (A & B & C); repeat split; assumption|]. rewrite E. exists (set_vers s v), e, z. split; [reflexivity|]. exists v. reflexivity.
Qed.
Lemma version_pre_only size nr p s : 1 <= nr -> nr < 256 -> version_only p -> named s -> (exists h, nth (hidx HVersion) (x_hand s) None = Some h) ->
  exists e v o, version_pre size nr p s = Some (e, set_vers s v, o) /\ filter not_version o = [].
Proof.
  intros N1 N2 V NM0 (h & HH). destruct (version_only_run size p V (set_vers s (set_cnr (x_vers s) nr))) as (s1 & st & z & E & v & ->); [destruct NM0 as (A & B & C); repeat split; assumption|].
  unfold version_pre. rewrite xbind_get, HH, xbind_mod. unfold call_handler. unfold xbind at 1. rewrite xbind_get. cbn [x_hand set_vers]. rewrite HH, xbind_observe. rewrite E. rewrite xbind_mod.
  change (ERR_OK =? ERR_OK) with true. cbv iota. destruct st.
  - rewrite xbind_get. unfold version_answer. rewrite send_eq1 by assumption. do 3 eexists. split; [reflexivity|]. reflexivity.
  - unfold xret. do 3 eexists. split; [reflexivity|]. reflexivity.
Qed.
Lemma harmless_step size o s : harmless o -> numbered o -> named s ->
  (exists h, nth (hidx HVersion) (x_hand s) None = Some h) -> exists e v ob, xl_step size o s = Some (e, set_vers s v, ob) /\ filter not_version ob = [].
Proof.
  intros H NR NM0 HH. destruct H as [o U|tab silent nr d p C V].
  - destruct (unrelated_step size o s U) as (e & v & E). exists e, v, []. split; [exact E|reflexivity].
  - cbn [xl_step]. destruct NR as [[N1 N2] LD].
    assert (DEC : listening tab silent nr \/ ~ listening tab silent nr).
    { destruct (by_nr tab silent nr) as [(q & FQ & E)|[NO E]].
      - destruct (N.eq_dec (nth q silent 0) SILENT) as [Z|Z]; [right|left; exists q; auto]. intros (q' & FQ' & Z'). assert (q = q') as -> by (eapply first_unique; eauto). congruence.
      - right. intros (q' & (L & FQ' & _) & _). exact (NO q' L FQ'). }
    destruct DEC as [LIS|NL]; [|exists ERR_OK, (x_vers s), []; rewrite rx_deaf by exact NL; split; [destruct s; reflexivity|reflexivity]].
    destruct (rx_listening size tab silent nr d p s LIS) as (q & _ & ->). cbv zeta. destruct NM0 as (A & B & CO).
    match goal with |- context [?x =? 16] => set (k := x) end. assert (C' : In k [0x10; 0x12]) by exact C. clear C. clearbody k. destruct C' as [<-|[<-|[]]].
    + codeg 16. unfold version_short. rewrite xbind_mod. match goal with |- context [version_pre _ _ _ ?st] => destruct (version_pre_only size nr p st N1 N2 V) as (e & v & ob & E & F); [repeat split; assumption|exact HH|] end.
      exists e, v, ob. rewrite E. split; [reflexivity|exact F].
    + codeg 18. unfold version_long2. rewrite xbind_mod. match goal with |- context [version_pre _ _ _ ?st] => destruct (version_pre_only size nr p st N1 N2 V) as (e & v & ob & E & F); [|exact HH|] end.
      * repeat split; [exact A| |exact CO]. cbn [x_vers set_vers c_name set_name]. rewrite app_length, firstn_length, B. reflexivity.
      * exists e, v, ob. rewrite E. split; [reflexivity|exact F].
Qed.
Lemma message_hand size o s e s' ob : dl_message o -> xl_step size o s = Some (e, s', ob) -> x_hand s' = x_hand s.
Proof. intros (tab & silent & nr & d & p & -> & _) E. apply ir_step in E as [[A _] _]; [exact A|congruence]. Qed.
Lemma interspersed_run size ops ops' : interspersed ops ops' -> Forall dl_message ops -> Forall numbered ops' -> forall s es s' obs, named s -> (exists h, nth (hidx HVersion) (x_hand s) None = Some h) ->
  xl_run size ops s = Some (es, s', obs) ->
  exists es' v obs', xl_run size ops' s = Some (es', set_vers s' v, obs') /\ filter not_version obs' = filter not_version obs.
Proof.
  induction 1 as [|o a b MX IH|o a b U MX IH]; intros F NU s es s' obs NM0 HH H.
  - injection H as <- <- <-. exists [], (x_vers s), []. split; [destruct s; reflexivity|reflexivity].
  - apply Forall_cons_iff in F as [H2 H3]. apply Forall_cons_iff in NU as [H4 H5]. cbn [xl_run] in *. apply xbind_inv in H as (e & s1 & o1 & o2 & E & H & ->). apply xbind_inv in H as (es1 & s2 & o3 & o4 & E2 & H & ->). injection H as _ <- <-.
    destruct (IH H3 H5 s1 es1 s2 o3) as (es' & v & obs' & E' & FI); [exact (nm_step size o H4 _ _ _ _ E NM0)|rewrite (message_hand _ _ _ _ _ _ H2 E); exact HH|exact E2|].
    exists (e :: es'), v, (o1 ++ obs'). unfold xbind. rewrite E, E'. unfold xret. rewrite !app_nil_r. split; [reflexivity|]. rewrite !filter_app. f_equal. exact FI.
  - apply Forall_cons_iff in NU as [H1 H2]. destruct (harmless_step size o s U H1 NM0 HH) as (e & v & ob & E & FE).
    destruct (IH F H2 (set_vers s v) es (set_vers s' v) obs) as (es' & v' & obs' & E' & FI); [exact (nm_step size o H1 _ _ _ _ E NM0)|exact HH|rewrite run_blind, H by exact F; reflexivity|].
    exists (e :: es'), v', (ob ++ obs'). cbn [xl_run]. unfold xbind. rewrite E, E'. unfold xret. rewrite app_nil_r. split; [reflexivity|]. rewrite filter_app, FE, FI. reflexivity.
Qed.
Lemma on_list_quiet size p : buffer_only p -> forall l l1 o rc, on_list size p l = (l1, o, rc) -> filter not_version o = o.
Proof.
  induction 1 as [rc e z|o k NR B IH]; intros l l1 ob r H; cbn [on_list] in H; [injection H as _ <- _; reflexivity|].
  destruct (list_step size l o) as [l2 rr]. destruct (on_list size (k (AUse rr)) l2) as [[l3 o3] r3] eqn:E. injection H as _ <- _. cbn [filter not_version]. f_equal. eapply IH; eauto.
Qed.
Lemma delivered_quiet size nr h c l blks l' os : delivered size nr h c l blks l' os -> filter not_version os = os.
Proof.
  induction 1 as [l|l b l1 o r l2 os BK BO FIT OL D IH]; [reflexivity|]. cbn [filter not_version]. f_equal. rewrite filter_app, (on_list_quiet _ _ BO _ _ _ _ OL). f_equal.
  cbn [filter not_version ack_msg]. change (negb (26 =? 24)) with true. cbv iota. f_equal. exact IH.
Qed.
Theorem C43_version_requests_partial : forall size pre s tab silent nr hs hb he hv name crc id c maxb delay blks l os ops,
  ready size pre s tab silent nr hs hb he -> first_reg HVersion pre = Some hv -> request name crc id -> requested s tab nr name crc id c -> maxb < 65536 -> delay < 256 ->
  delivered size nr hb c [] blks l os -> Forall numbered pre ->
  interspersed (concat (map (blk_ops tab silent nr) blks) ++ [end_op tab silent nr]) ops -> Forall numbered ops ->
  exists es s' obs, xl_run size (start_ops tab silent nr name crc id (accept nr maxb delay) ++ ops) s = Some (es, s', obs)
   /\ filter not_version obs = [XCalled HStartReq hs c; start_msg nr maxb delay] ++ os ++ [XCalled HEnd he c; end_ack_msg nr]
   /\ x_prog s' = Idle.
Proof.
  intros size pre s tab silent nr hs hb he hv name crc id c maxb delay blks l os ops RD FV RQ RC M D DE NP MX NU.
  destruct (dl_finish _ _ _ _ _ _ _ _ _ _ _ _ _ _ _ _ _ _ RD RQ RC M D DE) as (es & s1 & E1 & FE & P1).
  destruct (dl_started _ _ _ _ _ _ _ _ _ _ _ _ _ _ _ RD RQ RC M D) as (sA & EA & _ & _ & _ & HA).
  unfold dl_ops in E1. rewrite <- app_assoc, xl_run_app in E1. rewrite xl_run_app. rewrite EA in E1 |- *.
  destruct (xl_run size (concat _ ++ _) sA) as [[[e2 s2] o2]|] eqn:E2; [|discriminate]. injection E1 as _ <- E1.
  destruct RD as [_ NR _ (es0 & ob0 & RUN) _ _ _ _]. pose proof (named_run size pre _ _ _ _ NP (named_zero size) RUN) as NM0.
  assert (NMA : named sA).
  { eapply named_run; [|exact NM0|exact EA]. destruct RQ as [R1 R2 R3 _]. unfold start_ops. repeat constructor; try apply NR; cbn [length]; rewrite ?app_length, ?firstn_length, ?skipn_length; lia. }
  destruct (interspersed_run size _ _ MX) with (s := sA) (es := e2) (s' := s2) (obs := o2) as (es' & v & obs' & E' & FI); [|exact NU|exact NMA| |exact E2|].
  - apply Forall_app. split; [eapply blocks_messages; eauto|]. constructor; [|constructor]. unfold end_op. do 5 eexists. split; [reflexivity|]. split; [right; right; left; reflexivity|constructor].
  - exists hv. rewrite HA, (regs_kept _ _ _ _ _ RUN). exact FV.
  - rewrite E'. do 3 eexists. split; [reflexivity|]. split; [|exact P1].
    change ([XCalled HStartReq hs c; start_msg nr maxb delay] ++ obs') with (XCalled HStartReq hs c :: start_msg nr maxb delay :: obs').
    cbn [filter not_version start_msg app]. change (negb (25 =? 24)) with true. cbv iota. rewrite FI.
    cbn [app] in E1. first [injection E1 as -> | rewrite E1]. rewrite filter_app, (delivered_quiet _ _ _ _ _ _ _ _ DE). reflexivity.
Qed.
Print Assumptions C43_version_requests_partial.
Example C43_version_case : harmless (LRx tab41 sil41 10 (0x10 :: 3 :: pack6 name42) filling) /\ Forall numbered pre41 /\
  let ops := [LRx tab41 sil41 10 (0x10 :: 3 :: pack6 name42) filling] ++ concat (map (blk_ops tab41 sil41 10) [blk42b]) ++
             [LRx tab41 sil41 10 (0x10 :: 4 :: pack6 name42) filling; end_op tab41 sil41 10] in
  interspersed (concat (map (blk_ops tab41 sil41 10) [blk42b]) ++ [end_op tab41 sil41 10]) ops /\ Forall numbered ops.
Proof.
  assert (H : forall x, harmless (LRx tab41 sil41 10 (0x10 :: x :: pack6 name42) filling)).
  { intro x. apply HaVersion; [left; reflexivity|]. constructor. intros c L. apply VoSet; [exact L|constructor]. }
  split; [apply H|]. split; [repeat constructor|]. cbv zeta. split.
  - cbn [concat map blk_ops b_msgs blk42b b_hand app]. apply InMore; [apply H|]. do 2 apply InOp. apply InMore; [apply H|]. apply InOp. constructor.
  - repeat constructor; vm_compute; try discriminate; reflexivity.
Qed.

(** Refuted for version requests the application rejects: a version request for an unknown component, to any module, ends
    the running download: it is no longer in progress and its name is forgotten. *)
Theorem C43_rejected_version_refuted : forall size pre s tab silent nr hs hb he hv name crc id c maxb delay blks l os t2 z2 nr2 idx name2 rc st z,
  ready size pre s tab silent nr hs hb he -> first_reg HVersion pre = Some hv -> request name crc id -> requested s tab nr name crc id c -> maxb < 65536 -> delay < 256 ->
  delivered size nr hb c [] blks l os -> 1 <= nr2 < 256 -> listening t2 z2 nr2 -> rc <> 0 -> rc < 65536 ->
  exists es s' cv, xl_run size (dl_ops tab silent nr name crc id maxb delay blks ++ [LRx t2 z2 nr2 (0x10 :: idx :: pack6 name2) (HFin rc st z)]) s =
     Some (es ++ [rc], s', [XCalled HStartReq hs c; start_msg nr maxb delay] ++ os ++ [XCalled HVersion hv cv; term_msg nr2 rc])
   /\ x_prog s' = Idle /\ firstn 8 (c_name (x_comp s')) = repeat 0 8.
Proof.
  intros size pre s tab silent nr hs hb he hv name crc id c maxb delay blks l os t2 z2 nr2 idx name2 rc st z RD FV RQ RC M D DE [N1 N2] LI NZ R.
  destruct (dl_run _ _ _ _ _ _ _ _ _ _ _ _ _ _ _ _ _ _ RD RQ RC M D DE) as (es & s1 & E1 & FE & BT & C1 & P1 & H1).
  destruct RD as [_ _ _ (es0 & ob0 & RUN) _ _ _ _].
  rewrite xl_run_app, E1. cbn [xl_run xl_step].
  destruct (rx_listening size t2 z2 nr2 (0x10 :: idx :: pack6 name2) (HFin rc st z) s1 LI) as (q & _ & E). cbn [nth] in E. code E 16.
  unfold version_short, version_pre in E. rewrite xbind_mod, xbind_get in E. cbn [x_hand set_vers] in E. rewrite H1, (regs_kept _ _ _ _ _ RUN), FV, xbind_mod in E.
  unfold call_handler in E. unfold xbind at 1 in E. rewrite xbind_get in E. cbn [x_hand set_vers] in E. rewrite H1, (regs_kept _ _ _ _ _ RUN), FV, xbind_observe in E. cbn [hrun] in E. unfold xret at 1 in E.
  rewrite xbind_mod in E. change ERR_OK with 0 in E. destruct (N.eqb_spec rc 0); [contradiction|]. rewrite (xbind_some _ _ _ _ _ _ (term_eq nr2 rc _ N1 N2 R)) in E. unfold xret in E. cbn [app] in E.
  unfold xbind, xret. rewrite E. cbn [app]. exists es. do 2 eexists. split; [reflexivity|]. split; reflexivity.
Qed.
Print Assumptions C43_rejected_version_refuted.
(** Refuted for upload info requests: the handler of the next block sees the number of the module the request went to and no
    name. *)
Theorem C43_info_request_refuted : forall size pre s tab silent nr hs hb he hi name crc id c maxb delay blks l os t2 z2 nr2 idx name2 st z,
  ready size pre s tab silent nr hs hb he -> first_reg HInfo pre = Some hi -> request name crc id -> requested s tab nr name crc id c -> maxb < 65536 -> delay < 256 ->
  delivered size nr hb c [] blks l os -> 1 <= nr2 < 256 -> listening t2 z2 nr2 ->
  exists es s' ci ob, xl_run size (dl_ops tab silent nr name crc id maxb delay blks ++ [LRx t2 z2 nr2 (0x50 :: idx :: pack6 name2) (HFin ERR_OK st z)]) s =
     Some (es ++ [ERR_OK], s', [XCalled HStartReq hs c; start_msg nr maxb delay] ++ os ++ XCalled HInfo hi ci :: ob)
   /\ x_prog s' = InProgress /\ firstn 8 (c_name (x_comp s')) = repeat 0 8 /\ c_nr (x_comp s') = nr2.
Proof.
  intros size pre s tab silent nr hs hb he hi name crc id c maxb delay blks l os t2 z2 nr2 idx name2 st z RD FV RQ RC M D DE [N1 N2] LI.
  destruct (dl_run _ _ _ _ _ _ _ _ _ _ _ _ _ _ _ _ _ _ RD RQ RC M D DE) as (es & s1 & E1 & FE & BT & C1 & P1 & H1).
  destruct RD as [_ _ _ (es0 & ob0 & RUN) _ _ _ _].
  rewrite xl_run_app, E1. cbn [xl_run xl_step].
  destruct (rx_listening size t2 z2 nr2 (0x50 :: idx :: pack6 name2) (HFin ERR_OK st z) s1 LI) as (q & _ & E). cbn [nth] in E. code E 80.
  unfold info_short in E. rewrite xbind_mod, xbind_get in E. cbn [x_hand set_comp] in E. rewrite H1, (regs_kept _ _ _ _ _ RUN), FV, xbind_mod in E.
  unfold call_handler in E. unfold xbind at 1 in E. rewrite xbind_get in E. cbn [x_hand set_comp] in E. rewrite H1, (regs_kept _ _ _ _ _ RUN), FV, xbind_observe in E. cbn [hrun] in E. unfold xret at 1 in E.
  rewrite xbind_mod in E. change (ERR_OK =? ERR_OK) with true in E. cbv iota in E. destruct st.
  - rewrite xbind_get in E. unfold info_answer in E. rewrite send_eq1 in E by assumption. unfold xbind, xret. rewrite E. exists es. do 3 eexists. split; [reflexivity|]. split; [exact P1|]. split; reflexivity.
  - unfold xret in E. unfold xbind, xret. rewrite E. exists es. do 3 eexists. split; [reflexivity|]. split; [exact P1|]. split; reflexivity.
Qed.
Print Assumptions C43_info_request_refuted.
Example C43_rejected_case : exists es s' c c', xl_run 32 (dl_ops tab41 sil41 10 name42 [0x12; 0x34] [0; 1; 2; 3] 8 5 [] ++ 
     [LRx tab41 sil41 10 (0x50 :: 3 :: pack6 name42) (HFin ERR_OK true 5); LRx tab41 sil41 10 (0x10 :: 3 :: pack6 name42) (HFin 0x5034 true 0)]) (st41 32) =
   Some (es, s', [XCalled HStartReq 1 comp42; XFrame 0x625 [0x19; 0; 8; 5; 0; 0; 0; 0]; XCalled HInfo 7 c; XFrame 0x625 [0x53; 3; 0; 0; 0; 5; 0; 0];
                  XCalled HVersion 4 c'; XFrame 0x625 [0x1C; 0x75; 0; 0; 0x34; 0; 0; 0x75]]) /\ x_prog s' = Idle.
Proof. do 4 eexists. split; [vm_compute; reflexivity|reflexivity]. Qed.
