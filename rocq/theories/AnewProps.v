(** Properties of starting a transfer anew: C103. *)
From Verif Require Import Words ErrModel NodeModel LookModel LookSpec XBufModel XBufSpec XBufProofs AsyncModel AsyncSpec XloadModel XloadSpec XloadProofs XloadRun XloadProps StraySpec AnewSpec DlQueueModel DlQueueSpec DlQueue DlQueueProps StrayProps.

Lemma stop_eq size tab silent nr s : listening tab silent nr -> xl_run size [stop_op tab silent nr] s = Some ([ERR_OK], set_prog s Idle, []).
Proof.
  intro LI. unfold stop_op. cbn [xl_run xl_step].
  match goal with |- context [async_rx _ _ _ _ ?d ?p0] => destruct (rx_listening size tab silent nr d p0 s LI) as (q & _ & E) end. cbn [nth] in E. code E 28.
  rewrite xbind_mod in E. unfold xret in E. rewrite (xbind_some _ _ _ _ _ _ E). reflexivity.
Qed.
Lemma first_reg_more k a b h : first_reg k a = Some h -> first_reg k (a ++ b) = Some h.
Proof. intro H. rewrite first_reg_app, H. reflexivity. Qed.
Lemma served_ready size pre s tab silent nr hs hb he ops e1 s1 o1 : served size pre s tab silent nr hs hb he -> xl_run size ops s = Some (e1, s1, o1) -> x_prog s1 = Idle ->
  ready size (pre ++ ops) s1 tab silent nr hs hb he.
Proof.
  intros [Z NR LI (es & obs & RUN) A B C] E P. constructor; auto using first_reg_more.
  exists (es ++ e1), (obs ++ o1). rewrite xl_run_app, RUN, E. reflexivity.
Qed.

(** ** C103.  The master terminates whatever is running, with a message to any module that listens: the download that follows is
    complete, whatever the history was. *)
Theorem C103_after_stop_partial : forall size pre s tab silent nr hs hb he t2 z2 nr2 name crc id c maxb delay blks l os,
  served size pre s tab silent nr hs hb he -> listening t2 z2 nr2 ->
  request name crc id -> requested s tab nr name crc id c -> maxb < 65536 -> delay < 256 -> delivered size nr hb c [] blks l os ->
  exists es s', xl_run size (stop_op t2 z2 nr2 :: download tab silent nr name crc id maxb delay blks) s = Some (es, s', complete nr hs he c maxb delay os)
   /\ Forall (fun e => e = ERR_OK) es /\ x_prog s' = Idle.
Proof.
  intros size pre s tab silent nr hs hb he t2 z2 nr2 name crc id c maxb delay blks l os SV L2 RQ RC M D DE.
  pose proof (stop_eq size t2 z2 nr2 s L2) as E. pose proof (served_ready _ _ _ _ _ _ _ _ _ _ _ _ _ SV E eq_refl) as RD.
  destruct (dl_finish _ _ _ _ _ _ _ _ _ _ _ _ _ _ _ _ _ _ RD RQ RC M D DE) as (es & s' & E1 & F & P).
  exists (ERR_OK :: es), s'. split; [|split; [constructor; auto|exact P]].
  change (stop_op t2 z2 nr2 :: download tab silent nr name crc id maxb delay blks) with ([stop_op t2 z2 nr2] ++ download tab silent nr name crc id maxb delay blks).
  rewrite xl_run_app, E. unfold download. rewrite E1. reflexivity.
Qed.
Print Assumptions C103_after_stop_partial.
(** without such a message two attempts are enough: a download is complete at once, or its start request is refused without a
    call of any handler, and the same download is then complete.  A master that repeats a refused request always succeeds *)
Theorem C103_two_attempts_partial : forall size pre s tab silent nr hs hb he name crc id c maxb delay blks l os,
  served size pre s tab silent nr hs hb he -> request name crc id -> requested s tab nr name crc id c -> maxb < 65536 -> delay < 256 -> delivered size nr hb c [] blks l os ->
  (exists es s', xl_run size (download tab silent nr name crc id maxb delay blks) s = Some (es, s', complete nr hs he c maxb delay os) /\ Forall (fun e => e = ERR_OK) es)
  \/ (forall p, exists es s', xl_run size (start_ops tab silent nr name crc id p ++ download tab silent nr name crc id maxb delay blks) s =
        Some (ERR_OK :: E_DL_IN_PROGRESS :: es, s', term_msg nr E_DL_IN_PROGRESS :: complete nr hs he c maxb delay os) /\ Forall (fun e => e = ERR_OK) es).
Proof.
  intros size pre s tab silent nr hs hb he name crc id c maxb delay blks l os SV RQ RC M D DE. destruct (x_prog s) eqn:EP; [right|left]; cycle 1.
  - assert (RD : ready size pre s tab silent nr hs hb he) by (destruct SV; constructor; assumption).
    destruct (dl_finish _ _ _ _ _ _ _ _ _ _ _ _ _ _ _ _ _ _ RD RQ RC M D DE) as (es & s' & E1 & F & P). exists es, s'. auto.
  - intro p. pose proof SV as SV0. destruct SV0 as [_ [N1 N2] LI _ _ _ _].
    pose proof (second_start size tab silent nr name crc id p s N1 N2 LI EP) as E.
    pose proof (served_ready _ _ _ _ _ _ _ _ _ _ _ _ _ SV E eq_refl) as RD.
    destruct (dl_finish _ _ _ _ _ _ _ _ _ _ _ _ _ _ _ _ _ _ RD RQ RC M D DE) as (es & s' & E1 & F & P).
    exists es, s'. rewrite xl_run_app, E. unfold download. rewrite E1. split; [reflexivity|exact F].
Qed.
Print Assumptions C103_two_attempts_partial.
(** uploads after a termination: if the call returns (C44), the block is sent completely *)
Theorem C103_upload_partial : forall size pre es0 s obs0 hu tab silent nr t2 z2 nr2 name l2 mb delay rest data ticks es s' o,
  xl_run size pre (xst_zero size) = Some (es0, s, obs0) -> first_reg HUpStart pre = Some hu -> 1 <= nr < 256 -> listening tab silent nr -> listening t2 z2 nr2 ->
  N.of_nat (length data) < 65536 -> length name = 7%nat ->
  xl_run size (stop_op t2 z2 nr2 :: upload_request tab silent nr name l2 mb delay rest data ticks) s = Some (es, s', o) ->
  exists c, c_nr c = nr /\ c_name c = name ++ [l2; 0] /\ o = XCalled HUpStart hu c :: up_frames nr data.
Proof.
  intros size pre es0 s obs0 hu tab silent nr t2 z2 nr2 name l2 mb delay rest data ticks es s' o RUN HU [N1 N2] LI L2 SZ L7 H.
  change (stop_op t2 z2 nr2 :: upload_request tab silent nr name l2 mb delay rest data ticks) with ([stop_op t2 z2 nr2] ++ upload_request tab silent nr name l2 mb delay rest data ticks) in H.
  rewrite xl_run_app, stop_eq in H by exact L2. unfold upload_request in H.
  destruct (xl_run size _ (set_prog s Idle)) as [[[e2 s2] o2]|] eqn:E2; [|discriminate H]. injection H as _ _ <-.
  eapply up_request in E2 as (-> & _); [| | | | | | |rewrite <- HU; apply (regs_kept _ _ _ _ _ RUN)]; auto.
  eexists. split; [|split; [|reflexivity]]; reflexivity.
Qed.
Print Assumptions C103_upload_partial.
(** Refuted for the first attempt: a master that disappeared in the middle of a download, however long ago and whatever unrelated
    messages came since, makes the next start request fail, whoever sends it and to whichever module: no handler is called *)
Theorem C103_first_attempt_refuted : forall size nr h c l x ms tab silent ops t2 z2 nr2 name crc id p,
  downloading size nr h c l x -> listening tab silent nr -> Forall (fun m => length m = 7%nat) ms -> (length l + length (concat ms) <= size)%nat ->
  Forall unrelated ops -> 1 <= nr2 < 256 -> listening t2 z2 nr2 ->
  exists es s', xl_run size (data_ops tab silent nr ms ++ ops ++ start_ops t2 z2 nr2 name crc id p) x = Some (es ++ [E_DL_IN_PROGRESS], s', [term_msg nr2 E_DL_IN_PROGRESS]).
Proof.
  intros size nr h c l x ms tab silent ops t2 z2 nr2 name crc id p DL LI F FIT U [N1 N2] L2.
  destruct (dl_state _ _ _ _ _ _ DL) as (SZ & _ & _ & BT & _ & P & _).
  destruct (dl_data size tab silent nr l x ms LI BT F SZ FIT) as (s0 & E0 & _ & _ & _ & (S1 & _)).
  assert (UN : forall ops s, Forall unrelated ops -> exists es s', xl_run size ops s = Some (es, s', []) /\ x_prog s' = x_prog s).
  { clear. induction ops as [|o r IH]; intros s F; [exists [], s; auto|]. inversion F as [|? ? U F']; subst. destruct (unrelated_step size o s U) as (e & v & E).
    destruct (IH (set_vers s v) F') as (es & s' & E' & P'). exists (e :: es), s'. split; [|exact P'].
    cbn [xl_run]. rewrite (xbind_some _ _ _ _ _ _ E), (xbind_some _ _ _ _ _ _ E'). reflexivity. }
  destruct (UN ops s0 U) as (es1 & s1 & E1 & P1).
  rewrite xl_run_app, E0, xl_run_app, E1, (second_start size t2 z2 nr2 name crc id p s1 N1 N2 L2) by congruence.
  exists (repeat ERR_OK (length ms) ++ es1 ++ [ERR_OK]). eexists. rewrite <- !app_assoc. reflexivity.
Qed.
Print Assumptions C103_first_attempt_refuted.

(** module 10 with a buffer of 32 bytes.  A download of it was abandoned in the middle of a block: the start request is refused, the
    second attempt is complete; so is a download after a termination sent to the same module *)
Definition pre103 : list xlop := pre41 ++ dl_ops tab41 sil41 10 name42 [0x12; 0x34] [0; 1; 2; 3] 8 5 [] ++ data_ops tab41 sil41 10 [[1; 2; 3; 4; 5; 6; 7]].
Definition st103 : xst := match xl_run 32 pre103 (xst_zero 32) with Some (_, s, _) => s | None => xst_zero 32 end.
Example C103_case : served 32 pre103 st103 tab41 sil41 10 1 2 3 /\ x_prog st103 = InProgress /\ requested st103 tab41 10 name42 [0x12; 0x34] [0; 1; 2; 3] comp42 /\
  (exists es s', xl_run 32 (start_ops tab41 sil41 10 name42 [0x12; 0x34] [0; 1; 2; 3] (accept 10 8 5) ++ download tab41 sil41 10 name42 [0x12; 0x34] [0; 1; 2; 3] 8 5 [blk42a; blk42b]) st103 =
     Some (es, s', term_msg 10 E_DL_IN_PROGRESS :: complete 10 1 3 comp42 8 5 obs42)) /\
  (exists es s', xl_run 32 (stop_op tab41 sil41 10 :: download tab41 sil41 10 name42 [0x12; 0x34] [0; 1; 2; 3] 8 5 [blk42a; blk42b]) st103 = Some (es, s', complete 10 1 3 comp42 8 5 obs42)).
Proof.
  split; [constructor|].
  - cbn; lia.
  - lia.
  - exact lis41.
  - do 2 eexists. vm_compute. reflexivity.
  - reflexivity.
  - reflexivity.
  - reflexivity.
  - split; [vm_compute; reflexivity|]. split.
    + destruct requested42 as (q & F & E). exists q. split; [exact F|]. rewrite E. vm_compute. reflexivity.
    + split; do 2 eexists; vm_compute; reflexivity.
Qed.
