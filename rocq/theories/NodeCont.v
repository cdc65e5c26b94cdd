(** Proofs for C92. *)
From Verif Require Import Words ErrModel NodeModel NodeSpec NodeLib NodeInv NodeSync NodeImage NodeHw NodeRx NodeContSpec.

Lemma nth_error_set_nth_other {A} : forall (l : list A) i k x, i <> k -> nth_error (set_nth l i x) k = nth_error l k.
Proof. induction l as [|y l IH]; intros [|i] [|k] x H; cbn; try reflexivity; [congruence|]. apply IH. congruence. Qed.
Lemma nth_error_set_nth_same {A} : forall (l : list A) i x, (i < length l)%nat -> nth_error (set_nth l i x) i = Some x.
Proof. induction l as [|y l IH]; intros [|i] x H; cbn in *; try lia; [reflexivity|]. apply IH. lia. Qed.

Section Cont.
Context (E : env).

Definition same_objs (s s' : node) : Prop := k_tab (n_cfg s') = k_tab (n_cfg s) /\ h_rxtab (n_hw s') = h_rxtab (n_hw s) /\ n_mem s' = n_mem s.
#[local] Instance pre_same_objs : Pre same_objs.
Proof. unfold same_objs. split; intros; intuition congruence. Qed.
Local Ltac leaf := repeat split; reflexivity.
Lemma so_sys_tx nr d : pres same_objs (sys_tx nr d).
Proof. unfold sys_tx, send_msg. pres_tac; leaf. Qed.
Lemma so_one_error : pres same_objs send_one_error.
Proof. unfold send_one_error, send_error. repeat (simple apply so_sys_tx || pres_tac1); leaf. Qed.
Lemma so_drain fuel : pres same_objs (drain_errors fuel).
Proof. induction fuel as [|f IH]; cbn [drain_errors]; [pres_tac|]. repeat (simple apply so_one_error || pres_tac1); leaf. Qed.
Lemma so_mode m : pres same_objs (set_node_mode m).
Proof. unfold set_node_mode. pres_tac; leaf. Qed.
Lemma so_baud r : pres same_objs (set_baudrate r).
Proof.
  unfold set_baudrate. refine (pres_bind _ _ _ _ _); [pres_tac|intro tab]. generalize ERR_OK.
  induction tab as [|x tab IH]; intro e; cbn [set_baudrate_loop]; [pres_tac|].
  destruct (r =? x); [|apply IH]. unfold hw_set_baudrate. repeat (simple apply IH || pres_tac1); leaf.
Qed.
Lemma so_status p : pres same_objs (status_ackn E p).
Proof. unfold status_ackn. repeat (simple apply so_sys_tx || pres_tac1); leaf. Qed.
Lemma so_version p : pres same_objs (version_ackn E p).
Proof. unfold version_ackn. repeat (simple apply so_sys_tx || pres_tac1); leaf. Qed.
Lemma so_report e p n : pres same_objs (report e p n).
Proof. intros s u s' H. unfold report in H. destruct (syserr_send (n_err s) e p n) as [[st r]|]; [|discriminate]. injection H as _ <-. leaf. Qed.
Lemma so_cycle t : pres same_objs (set_cycle_time E t).
Proof. unfold set_cycle_time. repeat (simple apply so_report || pres_tac1); leaf. Qed.
Lemma so_cmd bc pos nr src : match cmd_of (b src 0) with CNumber | CSilent | CAwake | CType => False | _ => True end -> pres same_objs (sys_cmd E bc pos nr src).
Proof.
  intro Hc. unfold sys_cmd. refine (pres_bind _ _ _ _ _); [pres_tac|intro n]. destruct (cmd_of (b src 0)); try contradiction;
  repeat (simple apply so_status || simple apply so_version || simple apply so_mode || simple apply so_baud || simple apply so_cycle || simple apply so_drain || pres_tac1); leaf.
Qed.
Lemma so_sys id dlc data : (nth 0 data 0 =? 32) || (nth 0 data 0 =? 33) || (nth 0 data 0 =? 34) || (nth 0 data 0 =? 49) = false -> pres same_objs (on_sys E id dlc data).
Proof.
  intro Hc. assert (match cmd_of (b data 0) with CNumber | CSilent | CAwake | CType => False | _ => True end) as H.
  { apply orb_false_elim in Hc. destruct Hc as [Hc H4]. apply orb_false_elim in Hc. destruct Hc as [Hc H3]. apply orb_false_elim in Hc. destruct Hc as [H1 H2].
    change (nth 0 data 0) with (b data 0) in *. unfold cmd_of. rewrite H1, H2, H3, H4. repeat match goal with |- context[if ?c then _ else _] => destruct c; auto end. }
  unfold on_sys, sys_msg_rx, report_if. repeat (simple apply so_report || (simple apply so_cmd; exact H) || pres_tac1); leaf.
Qed.

Lemma so_other o : is_request o = false -> reconfigures o = false -> (forall a d, o <> OpWrite a d) ->
  (forall mo id dlc data now, o <> OpFrame mo id dlc data now) -> pres same_objs (step E o).
Proof.
  intros Hr Hc Hw Hf. destruct o; try discriminate; cbn [step]; try (exfalso; eapply Hf; reflexivity); try (exfalso; eapply Hw; reflexivity).
  - pres_tac; leaf.
  - pres_tac; leaf.
  - unfold ignore, set_image_cb. pres_tac; leaf.
  - pres_tac; leaf.
  - pres_tac; leaf.
  - pres_tac; leaf.
  - apply so_report.
  - unfold trigger_period. pres_tac; leaf.
  - unfold ignore, get_period. pres_tac; leaf.
  - unfold ignore. repeat (simple apply so_cycle || pres_tac1).
  - unfold ignore. repeat (simple apply so_mode || pres_tac1).
  - unfold ignore. repeat (simple apply so_baud || pres_tac1).
Qed.

(** one operation of a cycle *)
Lemma ordinary_step pre s o s' : reached E pre s -> is_request o = false -> reconfigures o = false -> step E o s = Ret (tt, s') ->
  k_tab (n_cfg s') = k_tab (n_cfg s) /\ h_rxtab (n_hw s') = h_rxtab (n_hw s) /\
  (n_mem s' = n_mem s /\ (forall pos obj, accepted E s o pos obj = false) \/
   (exists a d, o = OpWrite a d /\ n_mem s' = set_nth (n_mem s) a d) \/
   (exists mo id dlc data now pos obj g app, o = OpFrame mo id dlc data now /\ owner s mo = Some pos /\
     (forall p j, accepted E s o p j = (p =? pos)%nat && (j =? obj)%nat) /\
     r_conv_s (rxat (modat s pos) obj) = Some g /\ nth_error (n_mem s) (r_addr (rxat (modat s pos) obj)) = Some app /\
     n_mem s' = set_nth (n_mem s) (r_addr (rxat (modat s pos) obj)) (fst (g data app dlc)))).
Proof.
  intros R Hr Hc H. pose proof (HwI_reached E _ _ R) as HI.
  destruct o as [mo id dlc data now| | | | | | | | | | | | | | | | |a d|]; try discriminate Hc;
    try (match type of H with step E ?o s = _ => destruct (so_other o ltac:(reflexivity) ltac:(reflexivity) ltac:(intros; discriminate) ltac:(intros; discriminate) s tt s' H) as (A & B & C) end;
         split; [exact A|split; [exact B|left; split; [exact C|reflexivity]]]).
  2:{ cbn [step] in H. apply modify_inv in H. subst s'. split; [reflexivity|split; [reflexivity|]]. right. left. exists a, d. split; reflexivity. }
  destruct (is_sync_mo mo s) eqn:Sy; [destruct (owner s mo) as [pos|] eqn:O|].
  - destruct (step_data E _ _ _ _ _ _ _ _ HI O Sy H) as [e H1]. apply rx_data_main_inv in H1. cbn zeta in H1.
    destruct (accepts E s pos id dlc) eqn:A.
    + destruct H1 as (g & app & Eg & Ea & _ & ->). split; [reflexivity|split; [reflexivity|]]. right. right.
      exists mo, id, dlc, data, now, pos, (N.to_nat (id mod 4)), g, app. split; [reflexivity|]. split; [exact O|]. split; [|split; [exact Eg|split; [exact Ea|reflexivity]]].
      intros p j. cbn [accepted]. rewrite Sy, O. cbn [andb]. destruct (Nat.eqb_spec pos p) as [->|Np]; destruct (Nat.eqb_spec (N.to_nat (id mod 4)) j) as [<-|Nj]; cbn [andb].
      * rewrite !Nat.eqb_refl. cbn [andb]. exact A.
      * rewrite Nat.eqb_refl. cbn [andb]. symmetry. apply Nat.eqb_neq. congruence.
      * symmetry. apply andb_false_iff. left. apply Nat.eqb_neq. congruence.
      * symmetry. apply andb_false_iff. left. apply Nat.eqb_neq. congruence.
    + destruct H1 as [-> _]. split; [reflexivity|split; [reflexivity|]]. left. split; [reflexivity|]. intros p j. cbn [accepted]. rewrite Sy, O. cbn [andb].
      destruct (Nat.eqb_spec pos p) as [<-|Np]; [|reflexivity]. destruct (Nat.eqb_spec (N.to_nat (id mod 4)) j) as [<-|Nj]; [|reflexivity]. exact A.
  - cbn [step] in H. unfold frame_rx in H. mbind H as sy s0 H0. apply gets_inv in H0. destruct H0 as [-> ->]. rewrite Sy in H. mbind H as u s1 H1. destruct u.
    apply on_data_inv in H1. rewrite O in H1. subst s1. cbn [is_request] in Hr. rewrite Hr in H. mbind H as u2 s2 H2. apply ret_inv in H2. destruct H2 as [_ ->].
    assert (same_objs s s') as (A & B & C).
    { cbn [reconfigures] in Hc. destruct ((mo =? MO_SYS1)%nat || SYS2 E && (mo =? MO_SYS2)%nat) eqn:Q; [|apply ret_inv in H; destruct H as [_ ->]; apply pre_refl].
      assert ((mo =? MO_SYS1)%nat || (mo =? MO_SYS2)%nat = true) as Q2 by (destruct (mo =? MO_SYS1)%nat; [reflexivity|]; destruct (SYS2 E); [exact Q|discriminate]).
      rewrite Q2 in Hc. cbn [andb] in Hc. exact (so_sys id dlc data Hc _ _ _ H). }
    split; [exact A|split; [exact B|]]. left. split; [exact C|]. intros p j. cbn [accepted]. rewrite Sy, O. reflexivity.
  - cbn [step] in H. unfold frame_rx in H. mbind H as sy s0 H0. apply gets_inv in H0. destruct H0 as [-> ->]. rewrite Sy in H. mbind H as u s1 H1. apply ret_inv in H1. destruct H1 as [_ ->].
    cbn [is_request] in Hr. rewrite Hr in H. mbind H as u2 s2 H2. apply ret_inv in H2. destruct H2 as [_ ->].
    assert (same_objs s s') as (A & B & C).
    { cbn [reconfigures] in Hc. destruct ((mo =? MO_SYS1)%nat || SYS2 E && (mo =? MO_SYS2)%nat) eqn:Q; [|apply ret_inv in H; destruct H as [_ ->]; apply pre_refl].
      assert ((mo =? MO_SYS1)%nat || (mo =? MO_SYS2)%nat = true) as Q2 by (destruct (mo =? MO_SYS1)%nat; [reflexivity|]; destruct (SYS2 E); [exact Q|discriminate]).
      rewrite Q2 in Hc. cbn [andb] in Hc. exact (so_sys id dlc data Hc _ _ _ H). }
    split; [exact A|split; [exact B|]]. left. split; [exact C|]. intros p j. cbn [accepted]. rewrite Sy. reflexivity.
Qed.

(** a process request *)
Lemma so_process dlc now : pres same_objs (on_process E dlc now).
Proof.
  assert (forall n first, pres same_objs (check_modules n first now)) as Hc.
  { induction n as [|n IH]; intro first; cbn [check_modules]; [pres_tac|]. unfold check_module. repeat (simple apply IH || pres_tac1); leaf. }
  assert (pres same_objs (send_process_data E)) as Hs.
  { unfold send_process_data. refine (pres_bind _ _ _ _ _); [pres_tac|intro reg]. generalize (JUNK E) 0%nat reg SEND_FUEL. clear reg.
    intros can cur reg fuel. revert can cur reg. induction fuel as [|f IH]; intros; cbn [send_loop]; [apply pres_hang|].
    unfold send_one, tx_data_main, send_msg. repeat (simple apply IH || simple apply so_report || pres_tac1); leaf. }
  unfold on_process, process_request_rx, check_image, clear_image, rx_process_main.
  repeat (simple apply Hc || simple apply Hs || simple apply so_one_error || pres_tac1); leaf.
Qed.

Lemma same_view s s' : k_tab (n_cfg s') = k_tab (n_cfg s) -> h_rxtab (n_hw s') = h_rxtab (n_hw s) ->
  (forall p, modat s' p = modat s p) /\ (forall mo, owner s' mo = owner s mo).
Proof. intros A B. unfold modat, tab_of, owner. rewrite A, B. auto. Qed.
Lemma own_same s s' pos obj a : k_tab (n_cfg s') = k_tab (n_cfg s) -> h_rxtab (n_hw s') = h_rxtab (n_hw s) -> own_memory s pos obj a -> own_memory s' pos obj a.
Proof.
  intros A B [O1 O2]. destruct (same_view _ _ A B) as [V1 V2]. split; [rewrite V1; exact O1|]. intros mo p j. rewrite V1, V2. apply O2.
Qed.

Lemma request_same pre s d t s' : reached E pre s -> step E (request d t) s = Ret (tt, s') -> same_objs s s'.
Proof.
  intros R H. pose proof (HwI_reached E _ _ R) as HI. unfold request in H. cbn [step] in H. unfold frame_rx in H. mbind H as sy s0 H0. apply gets_inv in H0. destruct H0 as [-> ->].
  mbind H as u s1 H1. assert (s1 = s) as ->.
  { destruct (is_sync_mo MO_PROCESS s) eqn:Sy; [|apply ret_inv in H1; tauto]. destruct u. apply on_data_inv in H1. destruct (owner s MO_PROCESS) as [pos|] eqn:O; [|exact H1].
    exfalso. destruct HI as (_ & HI & _). destruct (HI MO_PROCESS (owner_in _ _ _ O)) as [_ Nr]. apply Nr. left. reflexivity. }
  mbind H as u2 s2 H2. change (MO_PROCESS =? MO_PROCESS)%nat with true in H2. cbv iota in H2. destruct u2.
  assert ((MO_PROCESS =? MO_SYS1)%nat || SYS2 E && (MO_PROCESS =? MO_SYS2)%nat = false) as Q by (change (MO_PROCESS =? MO_SYS2)%nat with false; rewrite andb_false_r; reflexivity).
  rewrite Q in H. apply ret_inv in H. destruct H as [_ ->]. exact (so_process _ _ _ _ _ H2).
Qed.

Lemma cont_view : forall ops pre s s', reached E pre s -> no_requests ops -> forallb (fun o => negb (reconfigures o)) ops = true ->
  run E ops s = Ret (tt, s') -> (forall p, modat s' p = modat s p) /\ (forall mo, owner s' mo = owner s mo).
Proof.
  induction ops as [|o ops IH]; intros pre s s' R Nr Nc H.
  - cbn [run] in H. apply ret_inv in H. destruct H as [_ ->]. auto.
  - apply run_cons in H. destruct H as (s1 & H1 & H2). unfold no_requests in Nr. cbn [forallb] in Nr, Nc. apply andb_prop in Nr, Nc. destruct Nr as [Nr1 Nr2], Nc as [Nc1 Nc2].
    apply negb_true_iff in Nr1, Nc1. destruct (ordinary_step _ _ _ _ R Nr1 Nc1 H1) as (A & B & _). destruct (same_view _ _ A B) as [V1 V2].
    destruct (IH _ s1 s' (reached_step E _ _ _ _ R H1) Nr2 Nc2 H2) as [I1 I2]. split; intro x; [rewrite I1; apply V1|rewrite I2; apply V2].
Qed.

(** one step seen from the memory of one object *)
Lemma cont_step pre s o s' pos obj a : reached E pre s -> is_request o = false -> reconfigures o = false -> (forall d, o <> OpWrite a d) ->
  own_memory s pos obj a -> step E o s = Ret (tt, s') ->
  own_memory s' pos obj a /\ (forall p, modat s' p = modat s p) /\
  (if accepted E s o pos obj then
     exists mo id dlc data now g app, o = OpFrame mo id dlc data now /\ r_conv_s (rxat (modat s pos) obj) = Some g /\ nth_error (n_mem s) a = Some app /\
       nth_error (n_mem s') a = Some (fst (g data app dlc))
   else nth_error (n_mem s') a = nth_error (n_mem s) a).
Proof.
  intros R Hr Hc Hw O H. destruct (ordinary_step _ _ _ _ R Hr Hc H) as (A & B & C). split; [eapply own_same; eauto|]. split; [apply same_view; assumption|].
  destruct C as [[C N]|[(a' & d & -> & C)|(mo & id & dlc & data & now & p & j & g & app & -> & Ow & Acc & Eg & Ea & C)]].
  - rewrite N. rewrite C. reflexivity.
  - cbn [accepted]. rewrite C. assert (a' <> a) by (intros ->; eapply Hw; reflexivity). apply nth_error_set_nth_other. congruence.
  - rewrite Acc. destruct O as [O1 O2]. destruct (Nat.eqb_spec pos p) as [<-|Np]; destruct (Nat.eqb_spec obj j) as [<-|Nj]; cbn [andb].
    + rewrite O1 in *. exists mo, id, dlc, data, now, g, app. split; [reflexivity|]. split; [exact Eg|]. split; [exact Ea|]. rewrite C. apply nth_error_set_nth_same.
      apply nth_error_Some. congruence.
    + rewrite C. apply nth_error_set_nth_other. intro Q. destruct (O2 mo pos j Ow); congruence.
    + rewrite C. apply nth_error_set_nth_other. intro Q. destruct (O2 mo p obj Ow); congruence.
    + rewrite C. apply nth_error_set_nth_other. intro Q. destruct (O2 mo p j Ow); congruence.
Qed.

(** a whole cycle *)
Lemma cont_none pos obj a : forall ops pre s s', reached E pre s -> no_requests ops -> forallb (fun o => negb (reconfigures o)) ops = true -> not_written a ops ->
  own_memory s pos obj a -> run E ops s = Ret (tt, s') -> receptions E s ops pos obj = 0%nat -> nth_error (n_mem s') a = nth_error (n_mem s) a /\ (forall p, modat s' p = modat s p).
Proof.
  induction ops as [|o ops IH]; intros pre s s' R Nr Nc Nw O H Z.
  - cbn [run] in H. apply ret_inv in H. destruct H as [_ ->]. auto.
  - apply run_cons in H. destruct H as (s1 & H1 & H2). unfold no_requests in Nr. cbn [forallb] in Nr, Nc. apply andb_prop in Nr, Nc. destruct Nr as [Nr1 Nr2], Nc as [Nc1 Nc2].
    apply negb_true_iff in Nr1, Nc1. cbn [receptions] in Z. rewrite H1 in Z.
    destruct (cont_step _ _ _ _ pos obj a R Nr1 Nc1 (fun d Q => Nw d (or_introl Q)) O H1) as (O' & V & C).
    destruct (accepted E s o pos obj); [discriminate|]. cbn [Nat.add] in Z.
    destruct (IH _ s1 s' (reached_step E _ _ _ _ R H1) Nr2 Nc2 (fun d Q => Nw d (or_intror Q)) O' H2 Z) as [I1 I2].
    rewrite I1. split; [exact C|]. intro p. rewrite I2. apply V.
Qed.
Lemma cont_once pos obj a : forall ops pre s s', reached E pre s -> no_requests ops -> forallb (fun o => negb (reconfigures o)) ops = true -> not_written a ops ->
  own_memory s pos obj a -> run E ops s = Ret (tt, s') -> receptions E s ops pos obj = 1%nat ->
  exists before mo id dlc data now rest sa g app,
    ops = before ++ OpFrame mo id dlc data now :: rest /\ run E before s = Ret (tt, sa) /\ accepted E sa (OpFrame mo id dlc data now) pos obj = true /\
    r_conv_s (rxat (modat s pos) obj) = Some g /\ nth_error (n_mem s) a = Some app /\ nth_error (n_mem s') a = Some (fst (g data app dlc)).
Proof.
  induction ops as [|o ops IH]; intros pre s s' R Nr Nc Nw O H Z; [discriminate|].
  apply run_cons in H. destruct H as (s1 & H1 & H2). unfold no_requests in Nr. cbn [forallb] in Nr, Nc. apply andb_prop in Nr, Nc. destruct Nr as [Nr1 Nr2], Nc as [Nc1 Nc2].
  apply negb_true_iff in Nr1, Nc1. cbn [receptions] in Z. rewrite H1 in Z.
  destruct (cont_step _ _ _ _ pos obj a R Nr1 Nc1 (fun d Q => Nw d (or_introl Q)) O H1) as (O' & V & C).
  destruct (accepted E s o pos obj) eqn:A.
  - assert (receptions E s1 ops pos obj = 0%nat) as Z0 by lia.
    destruct (cont_none pos obj a ops _ s1 s' (reached_step E _ _ _ _ R H1) Nr2 Nc2 (fun d Q => Nw d (or_intror Q)) O' H2 Z0) as [I1 _].
    destruct C as (mo & id & dlc & data & now & g & app & -> & Eg & Ea & Er). exists [], mo, id, dlc, data, now, ops, s, g, app.
    split; [reflexivity|]. split; [reflexivity|]. split; [exact A|]. split; [exact Eg|]. split; [exact Ea|]. rewrite I1. exact Er.
  - cbn [Nat.add] in Z. destruct (IH _ s1 s' (reached_step E _ _ _ _ R H1) Nr2 Nc2 (fun d Q => Nw d (or_intror Q)) O' H2 Z)
      as (before & mo & id & dlc & data & now & rest & sa & g & app & -> & B1 & B2 & B3 & B4 & B5).
    exists (o :: before), mo, id, dlc, data, now, rest, sa, g, app. split; [reflexivity|]. split; [eapply run_cons_intro; eauto|]. split; [exact B2|].
    rewrite V in B3. split; [exact B3|]. split; [rewrite <- C; exact B4|exact B5].
Qed.
End Cont.
