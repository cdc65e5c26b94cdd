(** Properties of the search for the baud rate (C51, C52, C61, C62). *)
From Verif Require Import Words WordsFacts ReconModel ReconSpec ReconProofs ReconInv.

(** a driver that accepts everything, and builds used in the examples: switch after 100 ticks, no traffic time 1000 ticks *)
Definition hok : hwo := HwO (fun _ => true) (fun _ => true).
Lemma hok_accepts : accepts hok.
Proof. split; reflexivity. Qed.
Definition g0 : rcfg := RCfg false 100 1000.
Definition g1 : rcfg := RCfg true 100 1000.
Definition quietp (now : N) : rev := EPoll false hok BActive LecNone now now.
(** start at 250, two switches of the rate *)
Definition ex_start : list rev := [EInit 250 false; EStart hok 0; quietp 150; quietp 300].
Ltac evok := repeat first [apply Forall_nil | apply Forall_cons; [first [exact I|exact hok_accepts|reflexivity]|]].

(** ** C51 *)
(** While a search is running the controller is in listen-only mode, for every history of frames, bus states, error codes and
    times, if the driver accepts the changes of mode and rate. *)
Theorem C51_listens_only_partial : forall g es,
  Forall ev_accepts es -> searching (rend g rec_zero es) -> r_hw (rend g rec_zero es) = MListen.
Proof. intros g es F. exact (proj1 (invH_all g es F)). Qed.
Print Assumptions C51_listens_only_partial.
Example C51_listens_only_ex : Forall ev_accepts ex_start /\ searching (rend g0 rec_zero ex_start) /\ r_rate (rend g0 rec_zero ex_start) = 500.
Proof. split; [evok|]. split; [exact I|reflexivity]. Qed.

(** Whatever the driver answers: the mode the stack asked for last in a search is listen-only, and no step within a search
    makes the controller operational. *)
Theorem C51_never_operational_partial : forall g es e s' o,
  let s := rend g rec_zero es in
  (searching s -> r_mode s = MListen) /\
  (rstep g e s = (s', o) -> searching s -> searching s' -> ~ In (OMode MOperational) o).
Proof.
  intros g es e s' o s. split; [exact (proj1 (proj2 (invA_all g es)))|]. intros P X X'. assert (OF := not_off_search s X). apply step_cases in P.
  assert (NB : forall h x, ~ In (OMode MOperational) (nb_obs h x)).
  { intros h x. unfold nb_obs. destruct (ok_mode h MStopped), (ok_rate h (nb_rate x)), (ok_mode h MListen); cbn; intuition discriminate. }
  assert (PC : forall chk h p l now late sw x y o', pcase chk h p l now late sw x y o' -> searching y -> ~ In (OMode MOperational) o').
  { intros chk h p l now late sw x y o' Q Y. destruct Q; try contradiction Y; try (apply NB); intros []. }
  destruct P; try congruence; try (intros []; fail); try contradiction X'.
  - unfold st_obs. destruct (ok_mode h MStopped), (_ && _), (ok_mode h MListen); cbn; intuition discriminate.
  - exact (PC _ _ _ _ _ _ _ _ _ _ H0 X').
Qed.
Print Assumptions C51_never_operational_partial.
Example C51_never_operational_ex :
  let h := HwO (fun m => match m with MListen => false | _ => true end) (fun _ => true) in
  let es := [EInit 250 false; EStart h 0] in
  searching (rend g0 rec_zero es) /\ r_hw (rend g0 rec_zero es) = MStopped /\
  searching (fst (rstep g0 (EPoll false h BOff LecForm 150 150) (rend g0 rec_zero es))) /\
  snd (rstep g0 (EPoll false h BOff LecForm 150 150) (rend g0 rec_zero es)) = [OMode MStopped; ORate 1000; OTry 1000].
Proof. vm_compute. repeat split. Qed.

(** The rates tried are 125, 1000, 500 and 250 in a cycle, whatever the driver answers. *)
Theorem C51_rates_partial : forall g es, cyclic 125 (obs_of (rruns g rec_zero es)).
Proof. intros g es. exact (proj1 (proj2 (proj2 (invA_all g es)))). Qed.
Print Assumptions C51_rates_partial.
Example C51_rates_ex :
  filter (fun x => match x with OTry _ => true | _ => false end)
    (obs_of (rruns g0 rec_zero (ex_start ++ [quietp 450; quietp 600; quietp 750]))) = [OTry 1000; OTry 500; OTry 250; OTry 125; OTry 1000].
Proof. reflexivity. Qed.

(** During a search the controller runs at the rate tried last, and its rate is changed only while it is stopped. *)
Theorem C51_rate_set_partial : forall g es,
  Forall ev_accepts es ->
  stopped_changes MStopped (obs_of (rruns g rec_zero es)) /\
  (forall r, searching (rend g rec_zero es) -> last_tried None (obs_of (rruns g rec_zero es)) = Some r ->
     r_rate (rend g rec_zero es) = r /\ r_cur (rend g rec_zero es) = r).
Proof.
  intros g es F. destruct (invH_all g es F) as (_ & B & C & _). split; [apply B|]. intros r X T.
  assert (K := invT_all g es X r T). assert (T2 : tried false (obs_of (rruns g rec_zero es)) = true).
  { apply (lt_tried _ None false); [split; congruence|]. rewrite T. discriminate. }
  destruct (C X T2) as [E1 E2]. split; congruence.
Qed.
Print Assumptions C51_rate_set_partial.
Example C51_rate_set_ex : last_tried None (obs_of (rruns g0 rec_zero ex_start)) = Some 500.
Proof. reflexivity. Qed.

(** Frames received during a search are not given to the stack and change nothing but the note that one was received. *)
Theorem C51_frames_ignored_partial : forall g e s s' o,
  searching s -> rstep g e s = (s', o) ->
  ~ In OProcessed o /\ (is_rx e -> s' = w_pend PMsg s /\ o = []).
Proof.
  intros g e s s' o X P. assert (OF := not_off_search s X). apply step_cases in P.
  assert (NB : forall h x, ~ In OProcessed (nb_obs h x)).
  { intros h x. unfold nb_obs. destruct (ok_mode h MStopped), (ok_rate h (nb_rate x)), (ok_mode h MListen); cbn; intuition discriminate. }
  assert (NO : forall h x, ~ In OProcessed (off_obs h x)).
  { intros h x. unfold off_obs. destruct (ok_mode h MStopped), (_ && _), (ok_mode h MOperational), (r_cause x); cbn; intuition discriminate. }
  destruct P; try congruence.
  - split; [intros []|intros []].
  - split; [|intros []]. unfold dl_obs. destruct (ok_mode h MStopped), (_ && _), (ok_mode h MOperational); cbn; intuition discriminate.
  - split; [|intros []]. unfold st_obs. destruct (ok_mode h MStopped), (_ && _), (ok_mode h MListen); cbn; intuition discriminate.
  - split; [intros []|intros []].
  - split; [intros []|]. auto.
  - split; [|intros []]. destruct H0; try (apply NB); try (apply NO); intros [].
Qed.
Print Assumptions C51_frames_ignored_partial.
Example C51_frames_ignored_ex :
  searching (rend g0 rec_zero ex_start) /\ snd (rstep g0 (ERx hok (FBaud 125)) (rend g0 rec_zero ex_start)) = [] /\
  snd (rstep g0 (ERx hok (FBaud 125)) rec_zero) = [OProcessed; OMode MStopped; ORate 125; OMode MStopped].
Proof. vm_compute. repeat split. Qed.

(** When a search ends, the node is operational, and if at least one rate was tried, it runs at the rate reported to the
    application, which is the rate it had been searching at or, for a start-up search that ended by time, the rate given to the
    initialisation. *)
Theorem C51_end_partial : forall g es e s' o,
  Forall ev_accepts es -> ev_accepts e ->
  let s := rend g rec_zero es in
  searching s -> rstep g e s = (s', o) -> ~ searching s' ->
  r_hw s' = MOperational /\ r_mode s' = MOperational /\
  (is_poll e -> tried false (obs_of (rruns g rec_zero es)) = true -> known_rate (r_startup s) = true ->
   exists r, (In (OStartupStop r) o \/ In (OOnlineStop r) o) /\ r_rate s' = r /\ (r = r_rate s \/ r = r_startup s /\ r_state s = RStartup)).
Proof.
  intros g es e s' o F AC s X P NX. assert (OF := not_off_search s X). destruct (invH_all g es F) as (_ & _ & HT & _). assert (HC := invC_all g es).
  assert (HB : tried false (obs_of (rruns g rec_zero es)) = true -> r_bdr s = r_rate s /\ known_rate (r_rate s) = true).
  { intro T. destruct (HT X T) as [E _]. fold s in E. split; [exact E|]. destruct (last_tried None (obs_of (rruns g rec_zero es))) as [r|] eqn:L.
    - destruct (bdr_known g es r X L) as [B K]. fold s in B. congruence.
    - exfalso. apply (lt_tried _ None false) in T; [|split; congruence]. contradiction. }
  fold s in HC. specialize (HC X). clear HT. apply step_cases in P.
  destruct P; cbn [ev_accepts] in AC; try congruence; try (exfalso; exact (NX X)); try (exfalso; exact (NX I)).
  - exfalso. apply NX. destruct d; exact X.
  - destruct AC as [A B]. cbn. rewrite A. split; [reflexivity|]. split; [reflexivity|]. intros [].
  - destruct AC as [A B].
    assert (OK : forall x, r_cause x <> CDownload ->
       r_hw (off_state h x) = MOperational /\ r_mode (off_state h x) = MOperational /\
       (known_rate (r_bdr x) = true -> (In (OStartupStop (r_bdr x)) (off_obs h x) \/ In (OOnlineStop (r_bdr x)) (off_obs h x)) /\ r_rate (off_state h x) = r_bdr x)).
    { intros x D. unfold off_state, off_obs. cbn. rewrite !A, B. split; [reflexivity|]. split; [reflexivity|]. intro K. rewrite K. cbn. split; [|reflexivity].
      destruct (r_cause x); try congruence; cbn; auto 8. }
    assert (GO : forall x, r_bdr x = r_bdr s -> r_cause x <> CDownload ->
       r_hw (off_state h x) = MOperational /\ r_mode (off_state h x) = MOperational /\
       (is_poll (EPoll mid h b l now late) -> tried false (obs_of (rruns g rec_zero es)) = true -> known_rate (r_startup s) = true ->
        exists r, (In (OStartupStop r) (off_obs h x) \/ In (OOnlineStop r) (off_obs h x)) /\ r_rate (off_state h x) = r /\ (r = r_rate s \/ r = r_startup s /\ r_state s = RStartup))).
    { intros x E D. destruct (OK x D) as (O1 & O2 & O3). split; [exact O1|]. split; [exact O2|]. intros _ T _. destruct (HB T) as [B1 B2].
      destruct O3 as [O3 O4]; [congruence|]. exists (r_bdr x). split; [exact O3|]. split; [exact O4|]. left. congruence. }
    revert H0. set (x := if mid then w_pend PMsg s else s).
    assert (E1 : r_bdr x = r_bdr s) by (destruct mid; reflexivity). assert (E2 : r_cause x = r_cause s) by (destruct mid; reflexivity).
    assert (E3 : r_state x = r_state s) by (destruct mid; reflexivity). assert (E4 : r_startup x = r_startup s) by (destruct mid; reflexivity).
    assert (SR : r_state x = RStartup -> searching s) by (intro E; unfold searching; rewrite <- E3, E; exact I).
    intro H0. clearbody x.
    assert (NXX : forall y, r_state y = RStartup \/ r_state y = ROn \/ r_state y = RIdle -> ~ searching y -> False) by (intros y [Y|[Y|Y]] N; apply N; unfold searching; rewrite Y; exact I).
    destruct H0; try (apply GO; [exact E1|first [congruence|discriminate]]); try (exfalso; apply NX; unfold searching; cbn; first [exact I|rewrite H0; exact I|rewrite H1; exact I|rewrite H2; exact I|rewrite H3; exact I]).
    + exfalso. apply NX. unfold searching. rewrite E3. exact X.
    + destruct (OK (w_bdr (r_startup x) (w_cause CNoTraffic x))) as (O1 & O2 & O3); [discriminate|]. split; [exact O1|]. split; [exact O2|]. intros _ _ K. destruct O3 as [O3 O4]; [cbn; congruence|].
      eexists. split; [exact O3|]. split; [exact O4|]. right. split; [exact E4|congruence].
    + apply GO; [exact E1|]. change (r_cause x <> CDownload). congruence.
Qed.
Print Assumptions C51_end_partial.
Example C51_end_ex :
  let es := ex_start ++ [ERx hok FOther] in
  Forall ev_accepts es /\ searching (rend g0 rec_zero es) /\ r_rate (rend g0 rec_zero es) = 500 /\
  rstep g0 (quietp 310) (rend g0 rec_zero es) = (fst (rstep g0 (quietp 310) (rend g0 rec_zero es)), [OMode MStopped; ORate 500; OMode MOperational; OStartupStop 500]) /\
  r_state (fst (rstep g0 (quietp 310) (rend g0 rec_zero es))) = ROff.
Proof. split; [evok|]. split; [exact I|]. vm_compute. repeat split. Qed.

(** Not for every answer of the driver: if the driver refuses the operational mode at the end, the search is over, the node is
    stopped, the application is not told, and no further call of li_can_slv_process tries again. *)
Lemma poll_quiet_off g s h now late : is_off s = true -> rstep g (EPoll false h BActive LecNone now late) s = (s, []).
Proof. intro O. cbn [rstep]. unfold poll, rseq, rskip. rewrite O. reflexivity. Qed.
Theorem C51_end_refuted : exists g h es e,
  searching (rend g rec_zero es) /\ ev_atomic e /\
  let s := fst (rstep g e (rend g rec_zero es)) in
  ~ searching s /\ r_hw s = MStopped /\ snd (rstep g e (rend g rec_zero es)) = [OMode MStopped; ORate 500] /\
  (forall h2 now late, rstep g (EPoll false h2 BActive LecNone now late) s = (s, [])) /\
  accepts h.
Proof.
  exists g0, hok, (ex_start ++ [ERx hok FOther]), (EPoll false (HwO (fun m => match m with MOperational => false | _ => true end) (fun _ => true)) BActive LecNone 310 310).
  split; [exact I|]. split; [reflexivity|]. cbv zeta. split; [intros []|]. split; [reflexivity|]. split; [reflexivity|]. split; [intros; apply poll_quiet_off; vm_compute; reflexivity|exact hok_accepts].
Qed.
Print Assumptions C51_end_refuted.

(** ** C52 *)
(** A frame received during a search, at a moment when no call of li_can_slv_process is running, fixes the rate: as long as
    the application does not start again, the rate stays and the node is operational at it when the search ends.  Missing: a
    second search that receives its first frame before it changed the rate. *)
Theorem C52_rate_kept_partial : forall g es h f es2,
  Forall ev_accepts (es ++ ERx h f :: es2) -> Forall ev_atomic es2 -> Forall not_start es2 ->
  let s := rend g rec_zero es in
  let s1 := fst (rstep g (ERx h f) s) in
  let obs := obs_of (rruns g rec_zero es) in
  searching s -> tried false obs = true \/ (searches obs <= 1)%nat ->
  search_lasts g s1 es2 ->
  r_rate (rend g s1 es2) = r_rate s /\ (~ searching (rend g s1 es2) -> r_hw (rend g s1 es2) = MOperational).
Proof.
  intros g es h f es2 F A2 N2 s s1 obs X T L. apply Forall_app in F. destruct F as [F1 F2]. inversion F2 as [|? ? Fx F3]; subst.
  assert (E1 : s1 = w_pend PMsg s). { unfold s1. destruct (rstep g (ERx h f) s) as [y o] eqn:E. exact (proj1 (proj2 (C51_frames_ignored_partial g _ s y o X E) I)). }
  assert (W : waiting (r_rate s) s1).
  { rewrite E1. split; [exact X|]. split; [reflexivity|]. split; [exact (proc_all g es X)|]. split; [reflexivity|].
    destruct (invH_all g es F1) as (_ & _ & HT & HU & _). cbn. destruct (tried false obs) eqn:TT.
    - left. exact (proj1 (HT X TT)).
    - destruct T as [T|T]; [discriminate|]. right. exact (HU T X TT). }
  destruct (wait_run g (r_rate s) es2 s1 F3 A2 N2 L W) as [(W1 & _ & _ & W4 & _)|(W1 & W2 & W3 & _)].
  - split; [exact W4|]. intro K. contradiction.
  - split; [exact W2|]. intros _. exact W3.
Qed.
Print Assumptions C52_rate_kept_partial.
Example C52_rate_kept_ex :
  let s := rend g0 rec_zero ex_start in
  let s1 := fst (rstep g0 (ERx hok FOther) s) in
  let es2 := [ERx hok (FBaud 1000); ESetState LInit; quietp 400] in
  searching s /\ tried false (obs_of (rruns g0 rec_zero ex_start)) = true /\ search_lasts g0 s1 es2 /\ r_state (rend g0 s1 es2) = ROff /\ r_rate (rend g0 s1 es2) = 500.
Proof.
  cbv zeta. split; [exact I|]. split; [reflexivity|]. split; [|split; reflexivity].
  intros [|[|[|n]]] H; try exact I. cbn in H. lia.
Qed.

(** The search is over after at most four further calls of li_can_slv_process. *)
Theorem C52_ends_partial : forall g es h f es2,
  Forall ev_accepts (es ++ ERx h f :: es2) -> Forall ev_atomic es2 -> Forall is_poll es2 -> length es2 = 4%nat ->
  let s := rend g rec_zero es in
  let s1 := fst (rstep g (ERx h f) s) in
  let obs := obs_of (rruns g rec_zero es) in
  searching s -> tried false obs = true \/ (searches obs <= 1)%nat ->
  exists n, (n <= 4)%nat /\ ~ searching (rend g s1 (firstn n es2)) /\ r_rate (rend g s1 (firstn n es2)) = r_rate s /\ r_hw (rend g s1 (firstn n es2)) = MOperational.
Proof.
  intros g es h f es2 F A2 P2 L4 s s1 obs X T. apply Forall_app in F. destruct F as [F1 F2]. inversion F2 as [|? ? Fx F3]; subst.
  assert (E1 : s1 = w_pend PMsg s). { unfold s1. destruct (rstep g (ERx h f) s) as [y o] eqn:E. exact (proj1 (proj2 (C51_frames_ignored_partial g _ s y o X E) I)). }
  assert (W : waiting (r_rate s) s1).
  { rewrite E1. split; [exact X|]. split; [reflexivity|]. split; [exact (proc_all g es X)|]. split; [reflexivity|].
    destruct (invH_all g es F1) as (_ & _ & HT & HU & _). cbn. destruct (tried false obs) eqn:TT.
    - left. exact (proj1 (HT X TT)).
    - destruct T as [T|T]; [discriminate|]. right. exact (HU T X TT). }
  assert (IV : invI s1) by (rewrite E1; exact (invI_all g es)).
  destruct (wait_polls g (r_rate s) es2 s1 F3 A2 P2 W IV) as (n & Hn & K1 & K2 & K3 & _).
  - rewrite L4. unfold polls_left. destruct (r_state s1); lia.
  - exists n. rewrite L4 in Hn. auto.
Qed.
Print Assumptions C52_ends_partial.
Example C52_ends_ex :
  let es := ex_start ++ [ERx hok FOther; quietp 400; EPoll false hok BOff LecStuff 500 500; EPoll false hok BOff LecStuff 700 700] in
  let s := rend g0 rec_zero es in
  r_state s = RIdle /\ tried false (obs_of (rruns g0 rec_zero es)) = true.
Proof. split; reflexivity. Qed.

(** Not for every history: the second call of lcsa_start searches at the start-up rate, and a frame received there before the
    rate is changed makes the node run at the rate found by the search before. *)
Theorem C52_refuted : exists g es,
  Forall ev_accepts es /\ Forall ev_atomic es /\
  let s := rend g rec_zero es in
  let s2 := rend g s [ERx hok FOther; quietp 2010] in
  r_state s = RStartup /\ r_rate s = 250 /\ r_state s2 = ROff /\ r_rate s2 = 500.
Proof.
  exists g0, (ex_start ++ [ERx hok FOther; quietp 310; EStart hok 2000]). split; [evok|]. split; [evok|]. vm_compute. repeat split.
Qed.
Print Assumptions C52_refuted.
(** Nor if the frame arrives while li_can_slv_process is running: it has already decided to change the rate. *)
Theorem C52_race_refuted : exists g es,
  Forall ev_accepts es /\
  let s := rend g rec_zero es in
  let s1 := fst (rstep g (EPoll true hok BActive LecNone 450 450) s) in
  let s2 := fst (rstep g (quietp 451) s1) in
  r_state s = RStartup /\ r_rate s = 500 /\ r_state s2 = ROff /\ r_rate s2 = 250.
Proof. exists g0, ex_start. split; [evok|]. vm_compute. repeat split. Qed.
Print Assumptions C52_race_refuted.
(** And the application is told rate 0 if the frame arrives before the first change of the rate. *)
Theorem C52_reported_refuted : exists g es,
  Forall ev_accepts es /\ Forall ev_atomic es /\
  let s := rend g rec_zero es in
  r_state s = ROff /\ r_hw s = MOperational /\ r_rate s = 250 /\ In (OStartupStop 0) (obs_of (rruns g rec_zero es)).
Proof. exists g0, [EInit 250 false; EStart hok 0; ERx hok FOther; quietp 10]. split; [evok|]. split; [evok|]. vm_compute. repeat split. auto 12. Qed.
Print Assumptions C52_reported_refuted.

(** ** C61 *)
(** Without LI_CAN_SLV_RECONNECT_PROCESS_STARTUP_CHECK_LEC a search ends only if a frame was received since the rate was
    chosen, or the tenth call of li_can_slv_process finds a Bit0 error (without another error in between), or the no-traffic
    time since the last lcsa_start is over. *)
Theorem C61_settles_partial : forall g es mid h b l now late,
  g_chk g = false -> Forall ev_atomic es -> mid = false ->
  let s := rend g rec_zero es in
  let '(heard, n) := act_of ROff act_zero (rruns g rec_zero es) in
  searching s -> ~ searching (fst (rstep g (EPoll mid h b l now late) s)) ->
  heard = true \/ (l = LecBit0 /\ 10 <= n + 1) \/
  (r_state s = RStartup /\ exists t0, last_start None es = Some t0 /\ u32 (t0 + g_wait g) < now).
Proof.
  intros g es mid h b l now late CH AT -> s. assert (V := invP_all g es CH AT). unfold invP in V.
  destruct (act_of ROff act_zero (rruns g rec_zero es)) as [heard n]. fold s in V. cbn [fst snd] in V. destruct V as (VP & _ & _ & VM & VN & VS).
  intros X NX. destruct (rstep g (EPoll false h b l now late) s) as [s' o] eqn:P. cbn [fst] in NX. assert (OF := not_off_search s X). apply step_cases in P.
  inversion P; subst; try congruence. rename H7 into OF2. rename H8 into Q. rewrite CH in Q.
  assert (U := u16_le (r_lec0 s + 1)).
  inversion Q; subst; try (exfalso; exact (NX X)); try (left; apply VM; assumption); try (exfalso; apply NX; unfold searching; cbn; first [exact I|rewrite H; exact I|rewrite H0; exact I|rewrite H1; exact I|rewrite H2; exact I]).
  - right. right. split; [assumption|]. destruct VS as (t0 & T1 & T2); [assumption|]. exists t0. split; [exact T1|]. rewrite <- T2. assumption.
  - exfalso. exact (proj1 (VN (or_introl H1)) H).
  - right. left. split; [reflexivity|]. destruct (VN (or_introl H1)) as [_ V2]. lia.
Qed.
Print Assumptions C61_settles_partial.
(** hypotheses met: by a frame, by ten Bit0 errors in an online search, by time *)
Definition bit0 (now : N) : rev := EPoll false hok BPassive LecBit0 now now.
Example C61_settles_ex :
  let es := [bit0 1; bit0 2; bit0 3; bit0 4; bit0 5; bit0 6; bit0 7; bit0 8; bit0 9] in
  searching (rend g0 rec_zero es) /\ act_of ROff act_zero (rruns g0 rec_zero es) = (false, 9) /\ ~ searching (fst (rstep g0 (bit0 10) (rend g0 rec_zero es))) /\
  searching (rend g0 rec_zero ex_start) /\ ~ searching (fst (rstep g0 (quietp 1001) (rend g0 rec_zero ex_start))) /\
  act_of ROff act_zero (rruns g0 rec_zero (ex_start ++ [ERx hok FOther])) = (true, 0).
Proof. vm_compute. repeat split; intros []. Qed.
(** With it, one call that sees an error followed by one that sees none is enough: nothing was received at the rate the node
    then runs at. *)
Theorem C61_refuted : exists g es h now late,
  g_chk g = true /\ Forall ev_accepts es /\ Forall ev_atomic es /\
  let s := rend g rec_zero es in
  let s2 := fst (rstep g (EPoll false h BActive LecNone now late) s) in
  act_of ROff act_zero (rruns g rec_zero es) = (false, 0) /\ r_state s = ROn /\ r_state s2 = ROff /\ r_hw s2 = MOperational /\ r_rate s2 = 1000 /\
  now <= g_wait g.
Proof.
  exists g1, [EInit 250 false; EStart hok 0; EPoll false hok BActive LecForm 10 10], hok, 20, 20. split; [reflexivity|]. split; [evok|]. split; [evok|].
  vm_compute. repeat split. discriminate.
Qed.
Print Assumptions C61_refuted.

(** ** C62 *)
(** After lcsa_start, as long as no frame arrives, the search goes on until the no-traffic time is over, and the first call of
    li_can_slv_process after it ends the search with the node operational at the rate given to the initialisation.  Missing: a
    clock that passes its largest value within that time, and the build with CHECK_LEC. *)
Definition poll_in_time (t : N) (e : rev) : Prop := match e with EPoll false _ _ _ now _ => now <= t | _ => False end.
Theorem C62_timeout_partial : forall g s h t0 ps h2 b l now late,
  g_chk g = false -> r_ls s <> LDownload -> t0 + g_wait g < 2 ^ 32 -> known_rate (r_startup s) = true ->
  Forall (poll_in_time (t0 + g_wait g)) ps -> accepts h2 -> t0 + g_wait g < now ->
  let s1 := rend g s (EStart h t0 :: ps) in
  let '(s2, o) := rstep g (EPoll false h2 b l now late) s1 in
  r_state s1 = RStartup /\ r_state s2 = ROff /\ r_hw s2 = MOperational /\ r_rate s2 = r_startup s /\ In (OStartupStop (r_startup s)) o.
Proof.
  intros g s h t0 ps h2 b l now late CH ND NW KN PS AC LT.
  set (K := fun x => r_state x = RStartup /\ r_pend x = PNone /\ r_proc x = true /\ r_time x = t0 + g_wait g /\ r_startup x = r_startup s).
  assert (K0 : K (fst (rstep g (EStart h t0) s))).
  { cbn [rstep]. rewrite start_eq. assert (U : u32 (t0 + g_wait g) = t0 + g_wait g) by (apply N.mod_small; exact NW).
    destruct (r_ls s); try congruence; repeat split; exact U. }
  assert (KS : forall ps x, Forall (poll_in_time (t0 + g_wait g)) ps -> K x -> K (rend g x ps)).
  { clear -CH. induction ps as [|e ps IH]; intros x F KX; [exact KX|]. inversion F; subst. cbn [rend fold_left]. apply IH; [assumption|].
    destruct e as [| |[|] h0 b l nw lt| |]; try contradiction. destruct (rstep g (EPoll false h0 b l nw lt) x) as [y o] eqn:P. cbn [fst].
    destruct KX as (K1 & K2 & K3 & K4 & K5). cbn [poll_in_time] in H1. assert (OF : is_off x = false) by (unfold is_off; rewrite K1; reflexivity).
    apply step_cases in P. inversion P as [| | | | | |? ? ? ? ? ? ? ? O1|? ? ? ? ? ? ? ? ? ? ? ? O1|? ? ? ? ? ? ? ? O1 Q]; subst; try congruence. rewrite CH, K2 in Q.
    inversion Q; subst; try congruence; try (rewrite K4 in *; lia); try (repeat split; auto; fail).
    exfalso. match goal with A : _ \/ _ |- _ => destruct A as [A|[A _]]; discriminate A end. }
  specialize (KS ps _ PS K0). intro s1. change (rend g (fst (rstep g (EStart h t0) s)) ps) with s1 in KS. clearbody s1.
  destruct (rstep g (EPoll false h2 b l now late) s1) as [s2 o] eqn:P. destruct KS as (K1 & K2 & K3 & K4 & K5). split; [exact K1|].
  assert (OF : is_off s1 = false) by (unfold is_off; rewrite K1; reflexivity).
  cbn [rstep] in P. unfold poll in P. fold (pre_part h2 b l late (g_sw g)) in P. unfold rseq at 1 in P.
  assert (PP : pre_part h2 b l late (g_sw g) s1 = (s1, [])) by (unfold pre_part, rif; destruct b, l; rewrite ?OF; reflexivity).
  rewrite PP, OF in P. unfold rskip, rseq at 1 in P. rewrite K2 in P. unfold process in P. rewrite K3, K1, K4 in P.
  replace (t0 + g_wait g <? now) with true in P by (symmetry; apply N.ltb_lt; exact LT).
  unfold rseq, rset in P. rewrite off_eq in P. injection P as <- <-. destruct AC as [A B]. unfold off_obs. cbn. rewrite ?A, ?B, ?K5, ?KN. cbn. repeat split. auto 6.
Qed.
Print Assumptions C62_timeout_partial.
Example C62_timeout_ex :
  let s := rend g0 rec_zero [EInit 250 false] in
  let ps := [quietp 150; EPoll false hok BOff LecStuff 1000 1000] in
  r_ls s <> LDownload /\ r_startup s = 250 /\ Forall (poll_in_time (0 + g_wait g0)) ps /\ r_rate (rend g0 s (EStart hok 0 :: ps)) = 500 /\
  r_rate (fst (rstep g0 (quietp 1001) (rend g0 s (EStart hok 0 :: ps)))) = 250.
Proof. cbv zeta. split; [discriminate|]. split; [reflexivity|]. split; [|split; reflexivity]. repeat constructor; vm_compute; discriminate. Qed.
(** Near the largest value of the clock the search ends with its first call, however long the no-traffic time is. *)
Theorem C62_refuted : forall g h l late,
  g_chk g = false -> 0 < g_wait g -> g_wait g < 2 ^ 32 -> accepts h ->
  let t0 := 2 ^ 32 - 1 in
  let s1 := rend g rec_zero [EInit 250 false; EStart hok t0] in
  let s2 := fst (rstep g (EPoll false h BActive l t0 late) s1) in
  r_state s1 = RStartup /\ r_state s2 = ROff /\ r_hw s2 = MOperational.
Proof.
  intros g h l late CH W1 W2 AC t0 s1. set (s0 := fst (rstep g (EInit 250 false) rec_zero)).
  assert (E1 : s1 = st_state hok t0 (g_sw g) (g_wait g) s0) by reflexivity.
  assert (T : r_time s1 < t0).
  { rewrite E1. cbn [r_time st_state]. replace (t0 + g_wait g) with (g_wait g - 1 + 1 * 2 ^ 32) by (unfold t0; lia). unfold u32.
    rewrite N.mod_add by discriminate. rewrite N.mod_small by lia. unfold t0. lia. }
  assert (R1 : r_state s1 = RStartup) by (rewrite E1; reflexivity). assert (R2 : r_pend s1 = PNone) by (rewrite E1; reflexivity). assert (R3 : r_proc s1 = true) by (rewrite E1; reflexivity).
  split; [exact R1|]. assert (OF : is_off s1 = false) by (unfold is_off; rewrite R1; reflexivity).
  destruct (rstep g (EPoll false h BActive l t0 late) s1) as [s2 o] eqn:P. cbn [fst]. clearbody s1.
  cbn [rstep] in P. unfold poll in P. fold (pre_part h BActive l late (g_sw g)) in P. unfold rseq at 1 in P.
  assert (PP : pre_part h BActive l late (g_sw g) s1 = (s1, [])) by (unfold pre_part, rif; destruct l; rewrite ?OF; reflexivity).
  rewrite PP, OF in P. unfold rskip, rseq at 1 in P. rewrite R2 in P. unfold process in P. rewrite R3, R1 in P.
  replace (r_time s1 <? t0) with true in P by (symmetry; apply N.ltb_lt; exact T).
  unfold rseq, rset in P. rewrite off_eq in P. injection P as <- <-. split; [reflexivity|]. unfold off_state. cbn [r_hw]. rewrite (proj1 AC). reflexivity.
Qed.
Print Assumptions C62_refuted.
