(** Properties of download messages outside of the download they belong to: C100. *)
From Verif Require Import Words ErrModel NodeModel LookModel LookSpec XBufModel XBufSpec XBufProofs AsyncModel AsyncSpec XloadModel XloadSpec XloadProofs XloadRun XloadProps DlQueueModel DlQueueSpec DlQueue DlQueueProps StraySpec.

Ltac blia := change byte with N in *; lia.
Definition same_but (s s' : xst) : Prop := x_comp s' = x_comp s /\ x_hand s' = x_hand s.
Lemma strays_run size : N.of_nat size < 65536 -> forall ops ms, strays ops ms -> forall s l, xrel size l (x_buf s) -> (length l + length (concat ms) <= size)%nat ->
  x_objs s + N.of_nat (length ms) < 65536 -> x_bytes s + N.of_nat (length (concat ms)) < 65536 ->
  exists es s', xl_run size ops s = Some (es, s', []) /\ xrel size (l ++ concat ms) (x_buf s') /\ x_objs s' = x_objs s + N.of_nat (length ms) /\
    x_bytes s' = x_bytes s + N.of_nat (length (concat ms)) /\ same_but s s'.
Proof.
  intros SZ ops ms S. induction S as [|o m ops ms O S IH]; intros s l R F CO CB.
  - exists [], s. cbn [concat length]. rewrite app_nil_r, !N.add_0_r. split; [reflexivity|]. split; [exact R|]. repeat split.
  - assert (ST : exists e s1, xl_step size o s = Some (e, s1, []) /\ xrel size (l ++ concat m) (x_buf s1) /\ x_objs s1 = x_objs s + N.of_nat (length m) /\
        x_bytes s1 = x_bytes s + N.of_nat (length (concat m)) /\ same_but s s1).
    { rewrite concat_app, !app_length in F, CB. rewrite app_length in CO. destruct O as [tab silent nr m p LI L|tab silent nr d p LI I|o U].
      - cbn [concat length] in F, CB, CO. rewrite app_length in F, CB. cbn [length] in F, CB. destruct (rx_data size tab silent nr m p s l LI L R) as (b & RB & E); [blia|].
        exists ERR_OK. eexists. split; [exact E|]. cbn [x_buf x_objs x_bytes set_cnts set_xbuf concat length]. rewrite !app_nil_r. split; [exact RB|].
        unfold u16. change byte with N in *. rewrite L. split; [lia|]. split; [lia|]. split; reflexivity.
      - exists ERR_OK. exists (set_prog s Idle). split; [|cbn [concat length]; rewrite app_nil_r, !N.add_0_r; split; [exact R|]; repeat split].
        cbn [xl_step]. destruct (rx_listening size tab silent nr d p s LI) as (q & _ & ->). cbv zeta. match goal with |- context [?x =? 16] => set (k := x) end. assert (I' : In k [0x1B; 0x1C]) by exact I. clear I. clearbody k.
        destruct I' as [<-|[<-|[]]]; [codeg 27|codeg 28]; rewrite xbind_mod; reflexivity.
      - destruct (unrelated_step size o s U) as (e & v & E). exists e. exists (set_vers s v). split; [exact E|]. cbn [concat length]. rewrite app_nil_r, !N.add_0_r. split; [exact R|]. repeat split. }
    destruct ST as (e & s1 & E1 & R1 & O1 & B1 & (S1 & S2)).
    rewrite concat_app, app_length in F, CB. rewrite app_length in CO.
    destruct (IH s1 (l ++ concat m) R1) as (es & s2 & E2 & R2 & O2 & B2 & (T1 & T2)); [rewrite app_length; blia|rewrite O1; blia|rewrite B1; blia|].
    exists (e :: es), s2. cbn [xl_run]. rewrite (xbind_some _ _ _ _ _ _ E1), (xbind_some _ _ _ _ _ _ E2). unfold xret. cbn [app]. split; [reflexivity|].
    rewrite concat_app, app_assoc, !app_length. split; [exact R2|]. split; [rewrite O2, O1; blia|]. split; [rewrite B2, B1; blia|]. split; congruence.
Qed.
Lemma stray_block size h l b l1 o ops s tab silent nr : N.of_nat size < 65536 -> 1 <= nr -> nr < 256 -> between size l s -> nth (hidx HBlockEnd) (x_hand s) None = Some h ->
  strays ops (b_msgs b) -> good_blk size l b l1 o -> listening tab silent nr ->
  exists es s', xl_run size (ops ++ [LRx tab silent nr (blk_end_msg b) (b_hand b)]) s = Some (es, s', XCalled HBlockEnd h (x_comp s) :: o ++ [ack_msg nr]).
Proof.
  intros SZ N1 N2 [BT1 BT2 BT3] HH S [[B7 BC] BO FIT OL] LI. pose proof (len7 _ B7) as L7.
  assert (LB : length (concat (b_msgs b)) = (length (b_bytes b) + length (b_fill b))%nat) by (rewrite BC, app_length; reflexivity).
  destruct (strays_run size SZ ops _ S s l BT1) as (es & s1 & E1 & R1 & O1 & Y1 & (S1 & S2)); [blia|rewrite BT2; blia|rewrite BT3; blia|].
  rewrite BT2 in O1. rewrite BT3 in Y1. cbn [N.add] in O1, Y1. rewrite N.add_0_l in O1, Y1.
  destruct (rx_end size tab silent nr (b_bytes b) (b_fill b) (b_msgs b) (b_hand b) h s1 l l1 o SZ N1 N2 LI) as (x2 & E2 & _); [congruence|rewrite <- BC; exact R1|exact O1|rewrite <- BC; exact Y1|blia|exact BO|exact OL|].
  assert (EB : Blk (b_bytes b) (b_fill b) (b_msgs b) (b_hand b) = b) by (destruct b; reflexivity). rewrite EB in E2. rewrite S1 in E2.
  rewrite xl_run_app, E1. cbn [xl_run xl_step]. rewrite (xbind_some _ _ _ _ _ _ E2). unfold xbind, xret. eexists; exists x2. cbn [app]. rewrite app_nil_r. reflexivity.
Qed.
Lemma stray_wrong size l ops ms s tab silent nr n k rest p : N.of_nat size < 65536 -> 1 <= nr -> nr < 256 -> between size l s -> strays ops ms ->
  (length l + length (concat ms) <= size)%nat -> (length ms <= length (concat ms))%nat -> k < 65536 -> k <> N.of_nat (length ms) -> listening tab silent nr ->
  exists es s', xl_run size (ops ++ [LRx tab silent nr (0x16 :: two n ++ two k ++ rest) p]) s = Some (es ++ [E_COUNT_NOT_MATCH], s', [term_msg nr E_COUNT_NOT_MATCH]) /\
    x_prog s' = Idle /\ xrel size (l ++ concat ms) (x_buf s') /\ x_objs s' = N.of_nat (length ms) /\ x_bytes s' = N.of_nat (length (concat ms)) /\
    x_comp s' = clear_name (x_comp s) /\ x_hand s' = x_hand s.
Proof.
  intros SZ N1 N2 [BT1 BT2 BT3] S FIT LM K KN LI.
  destruct (strays_run size SZ ops _ S s l BT1 FIT) as (es & s1 & E1 & R1 & O1 & Y1 & (S1 & S2)); [rewrite BT2; blia|rewrite BT3; blia|].
  rewrite BT2, N.add_0_l in O1. rewrite BT3, N.add_0_l in Y1. rewrite xl_run_app, E1. cbn [xl_run xl_step].
  match goal with |- context [async_rx _ _ _ _ ?d ?p0] => destruct (rx_listening size tab silent nr d p0 s1 LI) as (q & _ & E) end. cbn [nth] in E. code E 22.
  unfold block_end, two in E. cbn [app nth] in E. rewrite (two_back k) in E by exact K. rewrite xbind_get, O1 in E. destruct (k =? N.of_nat (length ms)) eqn:EK; [apply N.eqb_eq in EK; congruence|].
  rewrite (xbind_some _ _ _ _ _ _ (term_eq nr E_COUNT_NOT_MATCH s1 N1 N2 ltac:(reflexivity))) in E. unfold xret in E. cbn [app] in E. unfold two. cbn [app]. unfold xbind, xret. rewrite E.
  exists es. eexists. cbn [app]. split; [reflexivity|]. cbn [x_prog x_buf x_objs x_bytes x_comp x_hand set_prog set_comp]. rewrite S1, S2. auto 10.
Qed.
Lemma strays_data tab silent nr ms : listening tab silent nr -> Forall (fun m => length m = 7%nat) ms -> strays (data_ops tab silent nr ms) ms.
Proof. intros LI F. induction F as [|m ms L F IH]; [constructor|]. cbn [data_ops map]. apply (SsCons _ [m]); [apply StData; assumption|exact IH]. Qed.
Lemma strays_app a ms b ns : strays a ms -> strays b ns -> strays (a ++ b) (ms ++ ns).
Proof. intros A B. induction A as [|o m ops ms O S IH]; [exact B|]. cbn [app]. rewrite <- app_assoc. constructor; assumption. Qed.
Lemma strays_len ops ms : strays ops ms -> Forall (fun m => length m = 7%nat) ms.
Proof. induction 1 as [|o m ops ms O S IH]; [constructor|]. apply Forall_app. split; [|exact IH]. destruct O; repeat constructor; assumption. Qed.

(** ** C100: messages of a download act only within it.  What holds: whatever comes between two block ends of a download, data
    messages to any module, terminations, unrelated messages, a block end with another number of data messages than were
    received calls no handler *)
Theorem C100_counted_partial : forall size nr h c l x ops ms tab silent nr2 n k rest p,
  downloading size nr h c l x -> strays ops ms -> (length l + length (concat ms) <= size)%nat ->
  listening tab silent nr2 -> 1 <= nr2 < 256 -> k < 65536 -> k <> N.of_nat (length ms) ->
  exists es s', xl_run size (ops ++ [LRx tab silent nr2 (0x16 :: two n ++ two k ++ rest) p]) x = Some (es ++ [E_COUNT_NOT_MATCH], s', [term_msg nr2 E_COUNT_NOT_MATCH]) /\ x_prog s' = Idle.
Proof.
  intros size nr h c l x ops ms tab silent nr2 n k rest p DL S FIT LI [N1 N2] K KN. destruct (dl_state _ _ _ _ _ _ DL) as (SZ & _ & _ & BT & _).
  pose proof (len7 _ (strays_len _ _ S)) as L7.
  destruct (stray_wrong size l ops ms x tab silent nr2 n k rest p SZ N1 N2 BT S FIT) as (es & s' & E & P & _); auto; [blia|]. exists es, s'. auto.
Qed.
Print Assumptions C100_counted_partial.
(** Refuted: a master terminates the download in the middle of a block; no transfer is running any more.  The rest of the block
    comes all the same: the handler is called with the whole block, which is acknowledged *)
Theorem C100_terminated_refuted : forall size nr h c l x b l1 o ms1 ms2 tab silent,
  downloading size nr h c l x -> good_blk size l b l1 o -> b_msgs b = ms1 ++ ms2 -> listening tab silent nr ->
  exists es1 s1, xl_run size (data_ops tab silent nr ms1 ++ [stop_op tab silent nr]) x = Some (es1, s1, []) /\ x_prog s1 = Idle /\
  exists es2 s2, xl_run size (data_ops tab silent nr ms2 ++ [LRx tab silent nr (blk_end_msg b) (b_hand b)]) s1 = Some (es2, s2, XCalled HBlockEnd h c :: o ++ [ack_msg nr]).
Proof.
  intros size nr h c l x b l1 o ms1 ms2 tab silent DL G M LI. destruct (dl_state _ _ _ _ _ _ DL) as (SZ & N1 & N2 & BT & C1 & P1 & H1).
  pose proof G as [[B7 BC] BO FIT OL]. pose proof B7 as B7'. rewrite M in B7'. apply Forall_app in B7' as [F1 F2].
  assert (LB : length (concat (b_msgs b)) = (length (b_bytes b) + length (b_fill b))%nat) by (rewrite BC, app_length; reflexivity).
  assert (FIT1 : (length l + length (concat ms1) <= size)%nat) by (rewrite M, concat_app, app_length in LB; blia).
  destruct (dl_data size tab silent nr l x ms1 LI BT F1 SZ FIT1) as (s0 & E0 & R0 & O0 & Y0 & (S1 & S2 & S3 & S4 & S5 & S6 & S7)).
  assert (ES : xl_run size [stop_op tab silent nr] s0 = Some ([ERR_OK], set_prog s0 Idle, [])).
  { unfold stop_op. cbn [xl_run xl_step]. match goal with |- context [async_rx _ _ _ _ ?d ?p0] => destruct (rx_listening size tab silent nr d p0 s0 LI) as (q & _ & E) end.
    cbn [nth] in E. code E 28. rewrite xbind_mod in E. unfold xret in E. rewrite (xbind_some _ _ _ _ _ _ E). reflexivity. }
  assert (E01 : xl_run size (data_ops tab silent nr ms1 ++ [stop_op tab silent nr]) x = Some (repeat ERR_OK (length ms1) ++ [ERR_OK], set_prog s0 Idle, [])).
  { rewrite xl_run_app, E0, ES. reflexivity. }
  eexists; eexists. split; [exact E01|]. split; [reflexivity|].
  destruct (stray_block size h l b l1 o (data_ops tab silent nr ms1 ++ [stop_op tab silent nr] ++ data_ops tab silent nr ms2) x tab silent nr SZ N1 N2 BT H1) as (es & s' & E); [|exact G|exact LI|].
  { rewrite M. apply strays_app; [apply strays_data; assumption|]. apply (SsCons _ []); [|apply strays_data; assumption]. apply StStop; [exact LI|cbn; auto]. }
  rewrite app_assoc, <- app_assoc, xl_run_app, E01 in E. rewrite C1 in E.
  destruct (xl_run size (data_ops tab silent nr ms2 ++ [LRx tab silent nr (blk_end_msg b) (b_hand b)]) (set_prog s0 Idle)) as [[[e2 s2] o2]|]; [|discriminate E].
  injection E as _ _ EO. exists e2, s2. cbn [app] in EO. rewrite EO. reflexivity.
Qed.
Print Assumptions C100_terminated_refuted.
(** Refuted: the data messages of a block may go to any modules of the node that listen, in any mixture, and the block end to
    yet another one: the handler is called for the component of the download, and the module of the block end acknowledges *)
Theorem C100_modules_refuted : forall size nr h c l x b l1 o ops tab silent nr2,
  downloading size nr h c l x -> good_blk size l b l1 o -> strays ops (b_msgs b) -> listening tab silent nr2 -> 1 <= nr2 < 256 ->
  c_nr c = nr /\ exists es s', xl_run size (ops ++ [LRx tab silent nr2 (blk_end_msg b) (b_hand b)]) x = Some (es, s', XCalled HBlockEnd h c :: o ++ [ack_msg nr2]).
Proof.
  intros size nr h c l x b l1 o ops tab silent nr2 DL G S LI [N1 N2]. destruct (dl_state _ _ _ _ _ _ DL) as (SZ & _ & _ & BT & C1 & P1 & H1). split.
  - destruct DL as (pre & s & t & z & hs & he & name & crc & id & maxb & delay & blks & os & es & obs & RD & RQ & (q & _ & ->) & _). reflexivity.
  - rewrite <- C1. apply (stray_block size h l b l1 o ops x tab silent nr2); assumption.
Qed.
Print Assumptions C100_modules_refuted.
(** Refuted: the end of the download has been acknowledged.  Another block is accepted all the same *)
Theorem C100_after_end_refuted : forall size pre s tab silent nr hs hb he name crc id c maxb delay blks l os b l1 o,
  ready size pre s tab silent nr hs hb he -> request name crc id -> requested s tab nr name crc id c -> maxb < 65536 -> delay < 256 ->
  delivered size nr hb c [] blks l os -> good_blk size l b l1 o ->
  exists es1 s1 es2 s2, xl_run size (dl_ops tab silent nr name crc id maxb delay blks ++ [end_op tab silent nr]) s =
     Some (es1, s1, [XCalled HStartReq hs c; start_msg nr maxb delay] ++ os ++ [XCalled HEnd he c; end_ack_msg nr]) /\ x_prog s1 = Idle /\
   xl_run size (blk_ops tab silent nr b) s1 = Some (es2, s2, XCalled HBlockEnd hb (unnamed c) :: o ++ [ack_msg nr]).
Proof.
  intros size pre s tab silent nr hs hb he name crc id c maxb delay blks l os b l1 o RD RQ RC M D DE G.
  destruct (dl_run _ _ _ _ _ _ _ _ _ _ _ _ _ _ _ _ _ _ RD RQ RC M D DE) as (es & s1 & E1 & F & BT & C1 & P1 & H1).
  destruct RD as [[Z0 Z1] [N1 N2] LI (es0 & obs & RUN) HP HH1 HH2 HH3]. destruct (regs_run _ _ _ _ _ RUN) as ((_ & RG & _) & _).
  rewrite xl_run_app, E1. unfold end_op. cbn [xl_run xl_step].
  destruct (rx_listening size tab silent nr [0x17; 0; 0; 0; 0; 0; 0; 0] nothing s1 LI) as (q & _ & E). cbn [nth] in E. code E 23.
  unfold dload_end, call_handler, nothing in E. unfold xbind at 1 in E. rewrite xbind_get, H1, RG, HH3, xbind_observe in E. cbn [hrun xret app] in E.
  change (ERR_OK =? ERR_OK) with true in E. cbv iota in E. unfold end_ackn in E. rewrite xbind_mod, send_eq, xbind_mod in E by assumption. unfold xret in E.
  fold nothing in E. unfold xbind at 1. unfold xret. rewrite E. cbn [app].
  match type of E with _ = Some (_, ?st, _) => set (s2 := st) in * end.
  assert (CC : x_comp s2 = unnamed c).
  { unfold s2. cbn [x_comp set_prog set_comp]. rewrite C1. destruct RC as (q' & _ & ->). destruct RQ as [LN _ _ _]. unfold clear_name, unnamed, set_name. cbn [c_nr c_name c_crc c_id c_index c_type].
    f_equal. rewrite skipn_app, LN, skipn_all2 by lia. reflexivity. }
  assert (BT2 : between size l s2) by (destruct BT as [A1 A2 A3]; constructor; [exact A1|exact A2|exact A3]).
  assert (HB : nth (hidx HBlockEnd) (x_hand s2) None = Some hb) by (unfold s2; cbn [x_hand set_prog set_comp]; rewrite H1, RG; exact HH2).
  destruct (stray_block size hb l b l1 o (data_ops tab silent nr (b_msgs b)) s2 tab silent nr Z1 N1 N2 BT2 HB) as (e3 & s3 & E3); [apply strays_data; [exact LI|apply G]|exact G|exact LI|].
  do 4 eexists. split; [rewrite <- C1; reflexivity|]. split; [reflexivity|]. unfold blk_ops. unfold data_ops in E3. rewrite E3, CC. reflexivity.
Qed.
Print Assumptions C100_after_end_refuted.
(** Refuted: a block end with a wrong number of messages has terminated the download with an error.  The right block end after
    it is accepted all the same *)
Theorem C100_after_error_refuted : forall size nr h c l x b l1 o tab silent n k rest p,
  downloading size nr h c l x -> good_blk size l b l1 o -> listening tab silent nr -> k < 65536 -> k <> N.of_nat (length (b_msgs b)) ->
  exists es1 s1 s2, xl_run size (data_ops tab silent nr (b_msgs b) ++ [LRx tab silent nr (0x16 :: two n ++ two k ++ rest) p]) x = Some (es1, s1, [term_msg nr E_COUNT_NOT_MATCH]) /\ x_prog s1 = Idle /\
   xl_run size [LRx tab silent nr (blk_end_msg b) (b_hand b)] s1 = Some ([ERR_OK], s2, XCalled HBlockEnd h (unnamed c) :: o ++ [ack_msg nr]).
Proof.
  intros size nr h c l x b l1 o tab silent n k rest p DL G LI K KN. destruct (dl_state _ _ _ _ _ _ DL) as (SZ & N1 & N2 & BT & C1 & P1 & H1). pose proof G as [[B7 BC] BO FIT OL].
  assert (LB : length (concat (b_msgs b)) = (length (b_bytes b) + length (b_fill b))%nat) by (rewrite BC, app_length; reflexivity). pose proof (len7 _ B7) as L7.
  destruct (stray_wrong size l (data_ops tab silent nr (b_msgs b)) (b_msgs b) x tab silent nr n k rest p SZ N1 N2 BT) as (es & s1 & E & P & R1 & O1 & Y1 & CC & HH); auto; [apply strays_data; assumption|blia|blia|].
  assert (CU : x_comp s1 = unnamed c).
  { rewrite CC, C1. destruct DL as (pre & s & t & z & hs & he & name & crc & id & maxb & delay & blks & os & es0 & obs & RD & [LN _ _ _] & (q & _ & ->) & _).
    unfold clear_name, unnamed, set_name. cbn [c_nr c_name c_crc c_id c_index c_type]. f_equal. rewrite skipn_app, LN, skipn_all2 by lia. reflexivity. }
  destruct (rx_end size tab silent nr (b_bytes b) (b_fill b) (b_msgs b) (b_hand b) h s1 l l1 o SZ N1 N2 LI) as (s2 & E2 & _); [congruence|rewrite <- BC; exact R1|exact O1|rewrite <- BC; exact Y1|blia|exact BO|exact OL|].
  assert (EB : Blk (b_bytes b) (b_fill b) (b_msgs b) (b_hand b) = b) by (destruct b; reflexivity). rewrite EB, CU in E2.
  do 2 eexists. exists s2. split; [exact E|]. split; [exact P|]. cbn [xl_run xl_step]. rewrite (xbind_some _ _ _ _ _ _ E2). unfold xbind, xret. rewrite app_nil_r. reflexivity.
Qed.
Print Assumptions C100_after_error_refuted.
(** Refuted: no download was ever started; nothing but registrations has happened.  A block is accepted all the same, for a
    component without name, type and number *)
Theorem C100_never_started_refuted : forall size pre es s obs h b l1 o tab silent nr,
  (0 < size)%nat -> N.of_nat size < 65536 -> 1 <= nr < 256 -> listening tab silent nr ->
  only_regs pre -> xl_run size pre (xst_zero size) = Some (es, s, obs) -> first_reg HBlockEnd pre = Some h -> good_blk size [] b l1 o ->
  exists es2 s2, xl_run size (blk_ops tab silent nr b) s = Some (es2, s2, XCalled HBlockEnd h (Comp 0 (repeat 0 9) 0 0 0 (repeat 0 5)) :: o ++ [ack_msg nr]).
Proof.
  intros size pre es s obs h b l1 o tab silent nr Z0 SZ [N1 N2] LI OR RUN FR G.
  assert (K : x_buf s = xb_zero size /\ x_objs s = 0 /\ x_bytes s = 0 /\ x_comp s = Comp 0 (repeat 0 9) 0 0 0 (repeat 0 5)).
  { assert (GEN : forall pre s0 es s obs, only_regs pre -> xl_run size pre s0 = Some (es, s, obs) -> x_buf s = x_buf s0 /\ x_objs s = x_objs s0 /\ x_bytes s = x_bytes s0 /\ x_comp s = x_comp s0).
    { clear. induction pre as [|op pre IH]; intros s0 es s obs OR RUN; cbn [xl_run] in RUN.
      - injection RUN as _ <- _. auto.
      - destruct (OR op (or_introl eq_refl)) as (k & hh & ->). unfold xbind at 1 in RUN. destruct (xl_step size (LReg k hh) s0) as [[[e s1] o1]|] eqn:E1; [|discriminate RUN].
        unfold xbind in RUN. destruct (xl_run size pre s1) as [[[es1 s2] o2]|] eqn:E2; [|discriminate RUN]. injection RUN as _ <- _.
        destruct (IH s1 es1 s2 o2 (fun o I => OR o (or_intror I)) E2) as (A1 & A2 & A3 & A4). cbn [xl_step] in E1. unfold register in E1. rewrite xbind_get in E1.
        destruct (nth _ _ _); [|rewrite xbind_mod in E1]; injection E1 as _ <- _; auto. }
    destruct (GEN _ _ _ _ _ OR RUN) as (A1 & A2 & A3 & A4). rewrite A1, A2, A3, A4. repeat split. }
  destruct K as (K1 & K2 & K3 & K4).
  assert (BT : between size [] s) by (constructor; [rewrite K1; apply xrel_zero; exact Z0|exact K2|exact K3]).
  destruct (stray_block size h [] b l1 o (data_ops tab silent nr (b_msgs b)) s tab silent nr SZ N1 N2 BT) as (e3 & s3 & E3); [rewrite (regs_kept _ _ _ _ _ RUN); exact FR|apply strays_data; [exact LI|apply G]|exact G|exact LI|].
  rewrite K4 in E3. exists e3, s3. exact E3.
Qed.
Print Assumptions C100_never_started_refuted.

(** the block of C42 (nine bytes, two messages) for module 10: terminated between its messages; its second message and its
    block end to module 9, awake here; after an error; without a start *)
Definition sil100 : list N := [AWAKE; AWAKE].
Lemma lis100 : listening tab41 sil100 9 /\ listening tab41 sil100 10.
Proof.
  split.
  - exists 0%nat. split; [|discriminate]. split; [cbn; lia|]. split; [reflexivity|]. intros q H; lia.
  - exists 1%nat. split; [|discriminate]. split; [cbn; lia|]. split; [reflexivity|]. intros [|q] H; [discriminate|lia].
Qed.
Definition seen100 (ops : list xlop) (s : xst) : option (list xobs) := match xl_run 32 ops s with Some (_, _, o) => Some o | None => None end.
Definition d100 (nr : N) (d : list byte) : xlop := LRx tab41 sil100 nr d nothing.
Definition e100 (nr : N) (d : list byte) : xlop := LRx tab41 sil100 nr d (reading 4).
Definition got100 (c : comp) (nr : N) : list xobs := [XCalled HBlockEnd 2 c; got 1; got 2; got 3; got 4; ack_msg nr].
Example C100_case :
  strays [d100 10 m98a; d100 9 m98b] (b_msgs blk42a) /\
  seen100 [d100 10 m98a; stop_op tab41 sil100 10; d100 10 m98b; e100 10 m98e] st98 = Some (got100 comp42 10) /\
  seen100 [d100 10 m98a; d100 9 m98b; e100 9 m98e] st98 = Some (got100 comp42 9) /\
  seen100 [d100 10 m98a; d100 10 m98b; e100 10 [0x16; 0; 9; 0; 3; 0; 0; 0]; e100 10 m98e] st98 = Some (term_msg 10 E_COUNT_NOT_MATCH :: got100 (unnamed comp42) 10) /\
  seen100 [d100 10 m98a; d100 10 m98b; e100 10 m98e] (st41 32) = Some (got100 (Comp 0 (repeat 0 9) 0 0 0 (repeat 0 5)) 10).
Proof.
  split; [apply (SsCons _ [[1; 2; 3; 4; 5; 6; 7]]); [apply StData; [apply lis100|reflexivity]|]; apply (SsCons _ [[8; 9; 170; 170; 170; 170; 170]] [] []); [apply StData; [apply lis100|reflexivity]|constructor]|].
  split; [vm_compute; reflexivity|]. split; [vm_compute; reflexivity|]. split; vm_compute; reflexivity.
Qed.
Example C100_applied : downloading 32 10 2 comp42 [] st98 /\ good_blk 32 [] blk42a [5; 6; 7; 8; 9] [got 1; got 2; got 3; got 4] /\ listening tab41 sil41 10.
Proof. split; [exact down98|]. split; [exact good98|exact lis41]. Qed.
