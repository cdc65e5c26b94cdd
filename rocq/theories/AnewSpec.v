(** Specification of starting a transfer anew after whatever happened before. *)
From Verif Require Import Words ErrModel NodeModel LookModel LookSpec XBufModel XBufSpec AsyncSpec XloadModel XloadSpec.

(** a stack after any history [pre] of messages, calls and registrations that did not leave the buffer; the three handlers of
    downloads are registered in it, and a module listens.  Whether a transfer is running, of whatever kind, is open *)
Record served (size : nat) (pre : list xlop) (s : xst) (tab : list modl) (silent : list N) (nr hs hb he : N) : Prop := {
  sv_size : (0 < size)%nat /\ N.of_nat size < 65536; sv_nr : 1 <= nr < 256; sv_listens : listening tab silent nr;
  sv_run : exists es obs, xl_run size pre (xst_zero size) = Some (es, s, obs);
  sv_hs : first_reg HStartReq pre = Some hs; sv_hb : first_reg HBlockEnd pre = Some hb; sv_he : first_reg HEnd pre = Some he
}.
(** what is seen of a complete download: the start handler and the acknowledge, the blocks, the end handler and its acknowledge *)
Definition complete (nr hs he : N) (c : comp) (maxb delay : N) (os : list xobs) : list xobs :=
  [XCalled HStartReq hs c; start_msg nr maxb delay] ++ os ++ [XCalled HEnd he c; end_ack_msg nr].
(** a complete download *)
Definition download (tab : list modl) (silent : list N) (nr : N) (name crc id : list byte) (maxb delay : N) (blks : list blk) : list xlop :=
  dl_ops tab silent nr name crc id maxb delay blks ++ [end_op tab silent nr].
(** an upload request whose handler uploads [data] *)
Definition upload_request (tab : list modl) (silent : list N) (nr : N) (name : list byte) (l2 mb delay : N) (rest data : list byte) (ticks : list N) : list xlop :=
  [LRx tab silent nr (0x1D :: name) nothing;
   LRx tab silent nr (0x1E :: l2 :: two mb ++ delay :: rest) (HCall (AUpload data (N.of_nat (length data)) ticks) (fun _ => HFin ERR_OK true 0))].
