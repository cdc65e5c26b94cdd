(** Properties of the download and upload protocol: C41, C42, C43, C44, C45. *)
From Verif Require Import Words ErrModel NodeModel LookModel LookSpec XBufModel XBufSpec AsyncSpec XloadModel XloadSpec XloadProofs XloadRun.

(** ** C41: names.  A short version request or upload info request with the packed name of eight characters, received by a
    module that listens, calls the registered handler, whatever it does, with these eight characters (and the end mark). *)
Theorem C41_short_version : forall size s tab silent nr idx name p h e s' o,
  listening tab silent nr -> length name = 8%nat -> Forall name_char name ->
  nth (hidx HVersion) (x_hand s) None = Some h ->
  async_rx size tab silent nr (0x10 :: idx :: pack6 name) p s = Some (e, s', o) ->
  called HVersion h (Comp nr (name ++ [0]) (c_crc (x_vers s)) (c_id (x_vers s)) idx (c_type (x_vers s))) o.
Proof. exact short_name. Qed.
Print Assumptions C41_short_version.
Theorem C41_upload_info : forall size s tab silent nr idx name p h e s' o,
  listening tab silent nr -> length name = 8%nat -> Forall name_char name ->
  nth (hidx HInfo) (x_hand s) None = Some h ->
  async_rx size tab silent nr (0x50 :: idx :: pack6 name) p s = Some (e, s', o) ->
  called HInfo h (Comp nr (name ++ [0]) (c_crc (x_comp s)) (c_id (x_comp s)) idx (c_type (x_comp s))) o.
Proof. exact info_name. Qed.
Print Assumptions C41_upload_info.
(** two messages carry six and two bytes of the name *)
Theorem C41_long_version : forall size s t1 z1 t2 z2 nr idx i2 name rest p1 p2 h es s' o,
  listening t1 z1 nr -> listening t2 z2 nr -> length name = 8%nat ->
  nth (hidx HVersion) (x_hand s) None = Some h ->
  xl_run size [LRx t1 z1 nr (0x11 :: idx :: firstn 6 name) p1; LRx t2 z2 nr (0x12 :: i2 :: skipn 6 name ++ rest) p2] s = Some (es, s', o) ->
  called HVersion h (Comp nr (name ++ [0]) (c_crc (x_vers s)) (c_id (x_vers s)) idx (c_type (x_vers s))) o.
Proof. exact long_name. Qed.
Print Assumptions C41_long_version.
(** the start requests carry seven bytes of the name, then the last one, the checksum and the identification *)
Theorem C41_start_request : forall size s t1 z1 t2 z2 nr name crc id p1 p2 h es s' o,
  listening t1 z1 nr -> listening t2 z2 nr -> length name = 8%nat ->
  length crc = 2%nat -> length id = 4%nat -> bytes_ok crc -> bytes_ok id ->
  nth (hidx HStartReq) (x_hand s) None = Some h -> x_prog s = Idle ->
  xl_run size [LRx t1 z1 nr (0x13 :: firstn 7 name) p1; LRx t2 z2 nr (0x14 :: skipn 7 name ++ crc ++ id) p2] s = Some (es, s', o) ->
  exists type m q, is_first (of_nr nr) t2 q /\ nth_error t2 q = Some m /\ type = m_type m /\
  called HStartReq h (Comp nr (name ++ [0]) (be crc) (be id) (c_index (x_comp s)) type) o.
Proof. exact start_name. Qed.
Print Assumptions C41_start_request.

Definition tab41 : list modl := [set_m_nr modl0 9; set_m_nr (set_m_type modl0 [65; 66; 67; 68; 0]) 10].
Definition sil41 : list N := [SILENT; AWAKE].
Lemma lis41 : listening tab41 sil41 10.
Proof. exists 1%nat. split; [|discriminate]. split; [cbn; lia|]. split; [reflexivity|]. intros [|q] H; [discriminate|lia]. Qed.
Definition pre41 : list xlop :=
  [LReg HStartReq (Some 1); LReg HBlockEnd (Some 2); LReg HEnd (Some 3); LReg HVersion (Some 4); LReg HUpStart (Some 5); LReg HBlockAck (Some 6); LReg HInfo (Some 7)].
Definition st41 (size : nat) : xst := match xl_run size pre41 (xst_zero size) with Some (_, s, _) => s | None => xst_zero size end.
(** "HEX_09 _" is packed into A2 5E 3F 41 90 3F; the application answers with checksum and identification zero *)
Example C41_case : let name := [0x48; 0x45; 0x58; 0x5F; 0x30; 0x39; 0x20; 0x5F] in
  pack6 name = [0xA2; 0x5E; 0x3F; 0x41; 0x90; 0x3F] /\ Forall name_char name /\ nth (hidx HVersion) (x_hand (st41 64)) None = Some 4 /\
  exists s', async_rx 64 tab41 sil41 10 (0x10 :: 3 :: pack6 name) nothing (st41 64) =
   Some (ERR_OK, s', [XCalled HVersion 4 (Comp 10 (name ++ [0]) 0 0 3 (repeat 0 5)); XFrame 0x625 [0x18; 3; 0; 0; 0; 0; 0; 0]]).
Proof.
  cbv zeta. split; [vm_compute; reflexivity|]. split; [repeat constructor; vm_compute; discriminate|]. split; [reflexivity|]. eexists. vm_compute. reflexivity.
Qed.

(** ** C42: downloads.  In every stack reached by any history in which the three handlers are registered and no transfer is
    running: the start request, any number of blocks, the end.  The start handler accepts; the block handlers may do what
    they like with the buffer, other than restoring an older read position, and succeed.  Then the handlers are called in this order and each block handler finds the
    bytes left over and the bytes of the block, without filler ([delivered]); every block is acknowledged. *)
Theorem C42_download : forall size pre s tab silent nr hs hb he name crc id c maxb delay blks l os,
  ready size pre s tab silent nr hs hb he -> request name crc id -> requested s tab nr name crc id c -> maxb < 65536 -> delay < 256 ->
  delivered size nr hb c [] blks l os ->
  exists es s', xl_run size (dl_ops tab silent nr name crc id maxb delay blks ++ [end_op tab silent nr]) s =
     Some (es, s', [XCalled HStartReq hs c; start_msg nr maxb delay] ++ os ++ [XCalled HEnd he c; end_ack_msg nr])
   /\ Forall (fun e => e = ERR_OK) es /\ x_prog s' = Idle.
Proof. exact dl_finish. Qed.
Print Assumptions C42_download.
(** a block end with a wrong number of data messages: no handler is called, the download is terminated with an error *)
Theorem C42_wrong_count : forall size pre s tab silent nr hs hb he name crc id c maxb delay blks l os ms n k p rest,
  ready size pre s tab silent nr hs hb he -> request name crc id -> requested s tab nr name crc id c -> maxb < 65536 -> delay < 256 ->
  delivered size nr hb c [] blks l os ->
  Forall (fun m => length m = 7%nat) ms -> (length l + length (concat ms) <= size)%nat -> k < 65536 -> k <> N.of_nat (length ms) ->
  exists es s', xl_run size (dl_ops tab silent nr name crc id maxb delay blks ++ data_ops tab silent nr ms ++ [LRx tab silent nr (0x16 :: two n ++ two k ++ rest) p]) s =
     Some (es ++ [E_COUNT_NOT_MATCH], s', [XCalled HStartReq hs c; start_msg nr maxb delay] ++ os ++ [term_msg nr E_COUNT_NOT_MATCH])
   /\ x_prog s' = Idle.
Proof. exact dl_wrong. Qed.
Print Assumptions C42_wrong_count.
(** a data message that does not fit into the buffer terminates the download *)
Theorem C42_too_long : forall size pre s tab silent nr hs hb he name crc id c maxb delay blks l os ms m,
  ready size pre s tab silent nr hs hb he -> request name crc id -> requested s tab nr name crc id c -> maxb < 65536 -> delay < 256 ->
  delivered size nr hb c [] blks l os ->
  Forall (fun m => length m = 7%nat) ms -> (length l + length (concat ms) <= size)%nat -> length m = 7%nat -> (size < length l + length (concat ms) + 7)%nat ->
  exists es s', xl_run size (dl_ops tab silent nr name crc id maxb delay blks ++ data_ops tab silent nr (ms ++ [m])) s =
     Some (es ++ [ERR_BUF_OVERFLOW], s', [XCalled HStartReq hs c; start_msg nr maxb delay] ++ os ++ [term_msg nr ERR_BUF_OVERFLOW])
   /\ x_prog s' = Idle.
Proof. exact dl_full. Qed.
Print Assumptions C42_too_long.
(** finding: a block end that announces more bytes than were received is acknowledged, and the handler gets the filler bytes
    of the last message as if they were data *)
Theorem C42_byte_count_refuted : forall size pre s tab silent nr hs hb he name crc id c maxb delay blks l os ms n p l1 o,
  ready size pre s tab silent nr hs hb he -> request name crc id -> requested s tab nr name crc id c -> maxb < 65536 -> delay < 256 ->
  delivered size nr hb c [] blks l os ->
  Forall (fun m => length m = 7%nat) ms -> (length l + length (concat ms) <= size)%nat ->
  N.of_nat (length (concat ms)) < n -> n < 65536 - N.of_nat size ->
  buffer_only p -> on_list size p (l ++ concat ms) = (l1, o, ERR_OK) ->
  exists es s', xl_run size (dl_ops tab silent nr name crc id maxb delay blks ++ data_ops tab silent nr ms ++ [LRx tab silent nr (0x16 :: two n ++ two (N.of_nat (length ms)) ++ [0; 0; 0]) p]) s =
     Some (es, s', [XCalled HStartReq hs c; start_msg nr maxb delay] ++ os ++ [XCalled HBlockEnd hb c] ++ o ++ [ack_msg nr])
   /\ Forall (fun e => e = ERR_OK) es.
Proof. exact dl_bytes. Qed.
Print Assumptions C42_byte_count_refuted.

(** two blocks: nine bytes, of which the handler reads four, then three bytes, of which it reads one; module 10, size 32 *)
Definition name42 : list byte := [0x48; 0x45; 0x58; 0x5F; 0x30; 0x39; 0x20; 0x5F].
Fixpoint reading (n : nat) : hprog := match n with O => HFin ERR_OK true 0 | S k => HCall (ABuf XGet) (fun _ => reading k) end.
Definition blk42a : blk := Blk [1; 2; 3; 4; 5; 6; 7; 8; 9] [170; 170; 170; 170; 170] [[1; 2; 3; 4; 5; 6; 7]; [8; 9; 170; 170; 170; 170; 170]] (reading 4).
Definition blk42b : blk := Blk [10; 11; 12] [0; 0; 0; 0] [[10; 11; 12; 0; 0; 0; 0]] (reading 1).
Definition comp42 : comp := Comp 10 (name42 ++ [0]) 0x1234 0x10203 0 [65; 66; 67; 68; 0].
Lemma reading_only n : buffer_only (reading n).
Proof. induction n; cbn; constructor; auto. Qed.
Lemma ready42 : ready 32 pre41 (st41 32) tab41 sil41 10 1 2 3.
Proof. constructor; try reflexivity; [split; [lia|reflexivity]|lia|exact lis41|]. eexists; eexists. vm_compute. reflexivity. Qed.
Lemma request42 : request name42 [0x12; 0x34] [0; 1; 2; 3].
Proof. constructor; try reflexivity. repeat constructor. Qed.
Lemma requested42 : requested (st41 32) tab41 10 name42 [0x12; 0x34] [0; 1; 2; 3] comp42.
Proof. exists 1%nat. split; [|vm_compute; reflexivity]. split; [cbn; lia|]. split; [reflexivity|]. intros [|q] H; [discriminate|lia]. Qed.
Definition got (x : N) : xobs := XUsed XGet (XVal ERR_OK (Some x)).
Definition obs42 : list xobs :=
  [XCalled HBlockEnd 2 comp42; got 1; got 2; got 3; got 4; ack_msg 10; XCalled HBlockEnd 2 comp42; got 5; ack_msg 10].
Lemma delivered42 : delivered 32 10 2 comp42 [] [blk42a; blk42b] [6; 7; 8; 9; 10; 11; 12] obs42.
Proof.
  unfold obs42. eapply (DeCons _ _ _ _ [] blk42a [5; 6; 7; 8; 9] [got 1; got 2; got 3; got 4]); [split; [repeat constructor|reflexivity]|apply reading_only|cbn; lia|reflexivity|].
  eapply (DeCons _ _ _ _ _ blk42b _ [got 5]); [split; [repeat constructor|reflexivity]|apply reading_only|cbn; lia|reflexivity|]. constructor.
Qed.
Example C42_case : exists es s', xl_run 32 (dl_ops tab41 sil41 10 name42 [0x12; 0x34] [0; 1; 2; 3] 8 5 [blk42a; blk42b] ++ [end_op tab41 sil41 10]) (st41 32) =
     Some (es, s', [XCalled HStartReq 1 comp42; XFrame 0x625 [0x19; 0; 8; 5; 0; 0; 0; 0]] ++ obs42 ++ [XCalled HEnd 3 comp42; XFrame 0x625 [0x1B; 0; 0; 0; 0; 0; 0; 0]])
   /\ Forall (fun e => e = ERR_OK) es /\ x_prog s' = Idle.
Proof. apply (C42_download 32 pre41 (st41 32) tab41 sil41 10 1 2 3 name42 [0x12; 0x34] [0; 1; 2; 3] comp42 8 5 [blk42a; blk42b] [6; 7; 8; 9; 10; 11; 12] obs42 ready42 request42 requested42); [reflexivity|reflexivity|exact delivered42]. Qed.

(** ** C43: a running download.  Refuted: a second start request, from whoever and to whichever module that listens, is
    refused, but the answer to it ends the running download: it is no longer in progress and its name is forgotten. *)
Theorem C43_second_start_refuted : forall size pre s tab silent nr hs hb he name crc id c maxb delay blks l os t2 z2 nr2 name2 crc2 id2 p,
  ready size pre s tab silent nr hs hb he -> request name crc id -> requested s tab nr name crc id c -> maxb < 65536 -> delay < 256 ->
  delivered size nr hb c [] blks l os -> 1 <= nr2 < 256 -> listening t2 z2 nr2 ->
  exists es s', xl_run size (dl_ops tab silent nr name crc id maxb delay blks ++ start_ops t2 z2 nr2 name2 crc2 id2 p) s =
     Some (es ++ [E_DL_IN_PROGRESS], s', [XCalled HStartReq hs c; start_msg nr maxb delay] ++ os ++ [term_msg nr2 E_DL_IN_PROGRESS])
   /\ x_prog s' = Idle /\ firstn 8 (c_name (x_comp s')) = repeat 0 8.
Proof. exact second_refuted. Qed.
Print Assumptions C43_second_start_refuted.
(** the first message of an upload request, within a block, makes the end of the block fail although all its data arrived *)
Theorem C43_upload_request_refuted : forall size pre s tab silent nr hs hb he name crc id c maxb delay blks l os ms d p2 p t2 z2 nr2 n,
  ready size pre s tab silent nr hs hb he -> request name crc id -> requested s tab nr name crc id c -> maxb < 65536 -> delay < 256 ->
  delivered size nr hb c [] blks l os ->
  Forall (fun m => length m = 7%nat) ms -> (length l + length (concat ms) <= size)%nat -> ms <> [] -> listening t2 z2 nr2 -> n < 65536 ->
  exists es s', xl_run size (dl_ops tab silent nr name crc id maxb delay blks ++ data_ops tab silent nr ms ++
       [LRx t2 z2 nr2 (0x1D :: d) p2; LRx tab silent nr (0x16 :: two n ++ two (N.of_nat (length ms)) ++ [0; 0; 0]) p]) s =
     Some (es ++ [E_COUNT_NOT_MATCH], s', [XCalled HStartReq hs c; start_msg nr maxb delay] ++ os ++ [term_msg nr E_COUNT_NOT_MATCH])
   /\ x_prog s' = Idle.
Proof. exact upload_refuted. Qed.
Print Assumptions C43_upload_request_refuted.
(** what holds: with any number of unrelated messages anywhere between the messages of the download, the handlers, what they
    find and the answers are exactly those of the undisturbed download.  Missing: requests that call handlers (version and
    upload info requests). *)
Theorem C43_unrelated_messages_partial : forall size pre s tab silent nr hs hb he name crc id c maxb delay blks l os ops,
  ready size pre s tab silent nr hs hb he -> request name crc id -> requested s tab nr name crc id c -> maxb < 65536 -> delay < 256 ->
  delivered size nr hb c [] blks l os ->
  mixed (concat (map (blk_ops tab silent nr) blks) ++ [end_op tab silent nr]) ops ->
  exists es s', xl_run size (start_ops tab silent nr name crc id (accept nr maxb delay) ++ ops) s =
     Some (es, s', [XCalled HStartReq hs c; start_msg nr maxb delay] ++ os ++ [XCalled HEnd he c; end_ack_msg nr])
   /\ x_prog s' = Idle.
Proof. exact dl_mixed. Qed.
Print Assumptions C43_unrelated_messages_partial.
(** the first half of a second start request alone changes nothing *)
Theorem C43_half_request_partial : forall size tab silent nr d p s, x_prog s = InProgress ->
  async_rx size tab silent nr (0x13 :: d) p s = Some (ERR_OK, s, []).
Proof. exact half_start. Qed.
Print Assumptions C43_half_request_partial.
Example C43_case : exists es s', xl_run 32 (dl_ops tab41 sil41 10 name42 [0x12; 0x34] [0; 1; 2; 3] 8 5 [blk42a] ++ start_ops tab41 sil41 10 name42 [0; 0] [0; 0; 0; 0] nothing) (st41 32) =
     Some (es ++ [E_DL_IN_PROGRESS], s', [XCalled HStartReq 1 comp42; XFrame 0x625 [0x19; 0; 8; 5; 0; 0; 0; 0]; XCalled HBlockEnd 2 comp42; got 1; got 2; got 3; got 4; ack_msg 10]
       ++ [XFrame 0x625 [0x1C; 0x75; 0; 0; 53; 0; 0; 0x75]]) /\ x_prog s' = Idle.
Proof. exists [ERR_OK; ERR_OK; ERR_OK; ERR_OK; ERR_OK; ERR_OK]. eexists. split; [vm_compute; reflexivity|reflexivity]. Qed.
Example C43_mixed_case : mixed (concat (map (blk_ops tab41 sil41 10) [blk42b]) ++ [end_op tab41 sil41 10])
  ([LRx tab41 sil41 9 [0x14; 1; 1; 1; 1; 1; 1; 1] nothing] ++ concat (map (blk_ops tab41 sil41 10) [blk42b]) ++
   [LRx tab41 sil41 10 [0x11; 1; 1; 1; 1; 1; 1; 1] nothing; LRx tab41 sil41 10 [0x77; 1; 1; 1; 1; 1; 1; 1] nothing; end_op tab41 sil41 10]).
Proof.
  cbn [app]. apply MxUn; [apply UnDeaf; intros (q & (L & F & M) & S); destruct q as [|q]; [apply S; reflexivity|]; apply (M 0%nat); [lia|reflexivity]|].
  cbn [concat map blk_ops b_msgs blk42b b_hand app]. do 2 apply MxOp. apply MxUn; [apply UnCode; left; left; reflexivity|].
  apply MxUn; [apply UnCode; right; cbn; intros H; repeat destruct H as [H|H]; try discriminate; exact H|]. apply MxOp. constructor.
Qed.

(** ** C44: uploads.  After an upload request the handler uploads a block of any length below 65536: if the call returns, the
    frames sent are exactly the data messages of the block, seven bytes each, the last filled up with zeros, and the block
    end with its numbers of bytes and messages. *)
Theorem C44_first_block_partial : forall size tab silent nr name l2 mb delay data ticks rest t s h es s' o,
  1 <= nr -> nr < 256 -> N.of_nat (length data) < 65536 -> length name = 7%nat ->
  listening tab silent nr -> x_prog s = Idle -> nth (hidx HUpStart) (x_hand s) None = Some h ->
  xl_run size [LRx tab silent nr (0x1D :: name) nothing; LRx tab silent nr (0x1E :: l2 :: two mb ++ delay :: rest) (HCall (AUpload data (N.of_nat (length data)) ticks) (fun _ => HFin ERR_OK t 0))] s = Some (es, s', o) ->
  o = XCalled HUpStart h (Comp nr (name ++ [l2; 0]) (c_crc (x_comp s)) (c_id (x_comp s)) (c_index (x_comp s)) (c_type (x_comp s))) :: up_frames nr data /\
  x_bytes s' = N.of_nat (length data) /\ c_nr (x_comp s') = nr /\ x_hand s' = x_hand s.
Proof. exact up_request. Qed.
Print Assumptions C44_first_block_partial.
(** the concatenated payloads are the block and filler zeros, fewer than seven unless the block is empty *)
Theorem C44_reassembly_partial : forall data, exists n, concat (up_msgs data) = data ++ repeat 0 n /\ Forall (fun m => length m = 7%nat) (up_msgs data) /\
  (n < 7 \/ data = [] /\ n = 7)%nat.
Proof. exact up_concat. Qed.
Print Assumptions C44_reassembly_partial.
(** whatever the clock does, what was sent so far is a beginning of this *)
Theorem C44_prefix_partial : forall data s ticks nr b s' obs,
  N.of_nat (length data) < 65536 -> 1 <= nr -> nr < 256 -> c_nr (x_comp s) = nr -> x_bytes s = 0 ->
  upload data (N.of_nat (length data)) ticks s = Some (b, s', obs) -> exists rest, obs ++ rest = up_frames nr data.
Proof. exact up_prefix. Qed.
Print Assumptions C44_prefix_partial.
(** Refuted for the following blocks: a second block, not longer than the first, is never sent.  The receiver gets one
    message of zeros and a block end with the byte count of the first block. *)
Theorem C44_second_block_refuted : forall size tab silent nr d data ticks t s h es s' o,
  1 <= nr -> nr < 256 -> listening tab silent nr -> nth (hidx HBlockAck) (x_hand s) None = Some h ->
  c_nr (x_comp s) = nr -> x_bytes s < 65536 -> N.of_nat (length data) <= x_bytes s ->
  xl_run size [LRx tab silent nr (0x1A :: d) (HCall (AUpload data (N.of_nat (length data)) ticks) (fun _ => HFin ERR_OK t 0))] s = Some (es, s', o) ->
  o = [XCalled HBlockAck h (x_comp s); XFrame (ctl_id nr) [0x15; 0; 0; 0; 0; 0; 0; 0]; up_end nr (x_bytes s) 1].
Proof. exact up_next. Qed.
Print Assumptions C44_second_block_refuted.
(** finding: if the delay ends at the last value of the clock, the call never returns and sends nothing *)
Theorem C44_wait_refuted : forall data len msg old s ticks, Forall (fun t => t < 4294967296) ticks -> u32 (old + x_delay s) = 4294967295 ->
  ul_loop data len msg old ticks s = Some (false, s, []).
Proof. exact (fun data len msg old s ticks => up_stuck data len msg old s ticks). Qed.
Print Assumptions C44_wait_refuted.
Definition up44 (data : list byte) (ticks : list N) : hprog := HCall (AUpload data (N.of_nat (length data)) ticks) (fun _ => HFin ERR_OK true 0).
(** two blocks, of nine and of three bytes: the second one is lost *)
Example C44_case : exists es s' c c', xl_run 32 [LRx tab41 sil41 10 [0x1D; 1; 2; 3; 4; 5; 6; 7] nothing;
     LRx tab41 sil41 10 [0x1E; 8; 0; 16; 2; 0; 0; 0] (up44 [1; 2; 3; 4; 5; 6; 7; 8; 9] [0; 1; 2; 3; 3; 4; 5; 6; 6]);
     LRx tab41 sil41 10 [0x1A; 0; 0; 0; 0; 0; 0; 0] (up44 [10; 11; 12] [10; 20; 20])] (st41 32) =
   Some (es, s', [XCalled HUpStart 5 c; XFrame 0x625 [0x15; 1; 2; 3; 4; 5; 6; 7]; XFrame 0x625 [0x15; 8; 9; 0; 0; 0; 0; 0]; XFrame 0x625 [0x16; 0; 9; 0; 2; 0; 0; 0];
                  XCalled HBlockAck 6 c'; XFrame 0x625 [0x15; 0; 0; 0; 0; 0; 0; 0]; XFrame 0x625 [0x16; 0; 9; 0; 1; 0; 0; 0]]).
Proof. do 4 eexists. vm_compute. reflexivity. Qed.

(** ** C45: registrations.  In every history, whatever else happens in it, a registration answers as if only the first
    non-null handler counted, and every call of a handler goes to this one. *)
Theorem C45_first_handler : forall size ops es s obs, xl_run size ops (xst_zero size) = Some (es, s, obs) ->
  (forall i k h, nth_error ops i = Some (LReg k h) -> nth_error es i = Some (reg_result (firstn i ops) k)) /\
  (forall k h c, In (XCalled k h c) obs -> first_reg k ops = Some h).
Proof. exact regs_first. Qed.
Print Assumptions C45_first_handler.
(** the registered handler is the one later calls go to *)
Theorem C45_never_replaced : forall size ops es s obs, xl_run size ops (xst_zero size) = Some (es, s, obs) ->
  forall k, nth (hidx k) (x_hand s) None = first_reg k ops.
Proof. exact regs_kept. Qed.
Print Assumptions C45_never_replaced.
(** the two errors are different from success and from each other *)
Theorem C45_errors : forall k, taken k <> ERR_OK <-> In k [HStart; HVersion; HStartReq; HBlockEnd; HEnd; HInfo; HUpStart; HBlockAck].
Proof. intro k. destruct k; cbn [taken In]; split; intro H; try discriminate; try tauto; exfalso; repeat (destruct H as [H|H]; try discriminate H); contradiction. Qed.
Print Assumptions C45_errors.
Example C45_case : exists s obs, xl_run 32 [LReg HVersion None; LReg HVersion (Some 4); LReg HVersion (Some 5); LReg HTime (Some 6); LReg HTime (Some 7); LReg HVersion None;
     LRx tab41 sil41 10 (0x10 :: 3 :: pack6 name42) nothing] (xst_zero 32) =
   Some ([ERR_OK; ERR_OK; E_DLOAD_ADD_HANDLE; ERR_OK; ERR_OK; E_DLOAD_ADD_HANDLE; ERR_OK], s, XCalled HVersion 4 (Comp 10 (name42 ++ [0]) 0 0 3 (repeat 0 5)) :: obs).
Proof. do 2 eexists. vm_compute. reflexivity. Qed.
