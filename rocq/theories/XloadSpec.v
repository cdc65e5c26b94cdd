(** Specification of the download and upload protocol, in terms of messages, handler calls and buffer contents. *)
From Verif Require Import Words ErrModel NodeModel LookModel LookSpec XBufModel XBufSpec AsyncSpec XloadModel.

(** identifier of the control messages a module sends *)
Definition ctl_id (nr : N) : N := 0x601 + 4 * (nr - 1).
(** the message that ends a download with an error: the error code, its group and subgroup *)
Definition term_msg (nr err : N) : xobs :=
  XFrame (ctl_id nr) [0x1C; 0x70 + err / 4096; 0; (err mod 4096) / 256; err mod 256; 0; 0; 0x70 + err / 4096].
Definition ack_msg (nr : N) : xobs := XFrame (ctl_id nr) [0x1A; 0; 0; 0; 0; 0; 0; 0].

(** the master's packing of a name: four characters of the range 0x20..0x5F are one number of 24 bits, first character most
    significant, sent as three bytes, most significant first *)
Definition name_char (c : N) : Prop := 0x20 <= c <= 0x5F.
Definition bytes24 (v : N) : list byte := [v / 65536; v / 256 mod 256; v mod 256].
Definition pack4 (a b c d : N) : list byte := bytes24 ((a - 0x20) * 64 ^ 3 + (b - 0x20) * 64 ^ 2 + (c - 0x20) * 64 + (d - 0x20)).
Definition pack6 (name : list byte) : list byte :=
  match name with [a; b; c; d; e; f; g; h] => pack4 a b c d ++ pack4 e f g h | _ => [] end.

(** big-endian numbers *)
Definition be (bytes : list byte) : N := fold_left (fun v x => 256 * v + x) bytes 0.
Definition two (x : N) : list byte := [x / 256; x mod 256].

(** a handler that only works on the buffer and returns; what it does to a list of bytes *)
Inductive buffer_only : hprog -> Prop :=
| BoFin rc e z : buffer_only (HFin rc e z)
| BoUse o k : no_restore o = true -> (forall r, buffer_only (k (AUse r))) -> buffer_only (HCall (ABuf o) k).
Fixpoint on_list (size : nat) (p : hprog) (l : list byte) : list byte * list xobs * N :=
  match p with
  | HFin rc _ _ => (l, [], rc)
  | HCall (ABuf o) k =>
      let '(l1, r) := list_step size l o in
      let '(l2, obs, rc) := on_list size (k (AUse r)) l1 in (l2, XUsed o r :: obs, rc)
  | HCall _ _ => (l, [], 0)
  end.

(** one block of a download: its bytes, the filler (at the end of the last message, or more), the messages, and what the block handler does *)
Record blk := Blk { b_bytes : list byte; b_fill : list byte; b_msgs : list (list byte); b_hand : hprog }.
Definition blk_ok (b : blk) : Prop :=
  Forall (fun m => length m = 7%nat) (b_msgs b) /\ concat (b_msgs b) = b_bytes b ++ b_fill b.
(** the messages of the block: data messages and the block end with the number of bytes and of data messages *)
Definition blk_end_msg (b : blk) : list byte := 0x16 :: two (N.of_nat (length (b_bytes b))) ++ two (N.of_nat (length (b_msgs b))) ++ [0; 0; 0].
Definition nothing : hprog := HFin ERR_OK true 0.
Definition blk_ops (tab : list modl) (silent : list N) (nr : N) (b : blk) : list xlop :=
  map (fun m => LRx tab silent nr (0x15 :: m) nothing) (b_msgs b) ++ [LRx tab silent nr (blk_end_msg b) (b_hand b)].

(** [delivered l blks l' obs]: with [l] left in the buffer from before, the handler [h] is called once for every block, finds
    the bytes left over and the bytes of the block, and each block is acknowledged; [l'] is left at the end *)
Inductive delivered (size : nat) (nr h : N) (c : comp) : list byte -> list blk -> list byte -> list xobs -> Prop :=
| DeNil l : delivered size nr h c l [] l []
| DeCons l b l1 o r l2 os : blk_ok b -> buffer_only (b_hand b) ->
    (length l + length (b_bytes b) + length (b_fill b) <= size)%nat ->
    on_list size (b_hand b) (l ++ b_bytes b) = (l1, o, ERR_OK) ->
    delivered size nr h c l1 r l2 os ->
    delivered size nr h c l (b :: r) l2 (XCalled HBlockEnd h c :: o ++ ack_msg nr :: os).

(** the first thing that happens is a call of handler [h] with component [c] *)
Definition called (k : hkind) (h : N) (c : comp) (obs : list xobs) : Prop := exists rest, obs = XCalled k h c :: rest.

(** the first non-null handler registered for [k] *)
Definition same_kind (k k' : hkind) : {k = k'} + {k <> k'}. Proof. decide equality. Defined.
Fixpoint first_reg (k : hkind) (ops : list xlop) : option N :=
  match ops with
  | [] => None
  | LReg k' (Some h) :: r => if same_kind k k' then Some h else first_reg k r
  | _ :: r => first_reg k r
  end.

(** the messages around the blocks: the two start requests and the end of the download *)
Definition start_ops (tab : list modl) (silent : list N) (nr : N) (name crc id : list byte) (p : hprog) : list xlop :=
  [LRx tab silent nr (0x13 :: firstn 7 name) nothing; LRx tab silent nr (0x14 :: skipn 7 name ++ crc ++ id) p].
Definition start_msg (nr maxb delay : N) : xobs := XFrame (ctl_id nr) (0x19 :: two maxb ++ [delay; 0; 0; 0; 0]).
Definition end_ack_msg (nr : N) : xobs := XFrame (ctl_id nr) [0x1B; 0; 0; 0; 0; 0; 0; 0].
(** a start handler that accepts the download *)
Definition accept (nr maxb delay : N) : hprog := HCall (AStartAckn nr maxb delay) (fun _ => HFin ERR_OK true 0).

(** a stack with the three download handlers registered, no transfer running, and a module that listens *)
Record ready (size : nat) (pre : list xlop) (s : xst) (tab : list modl) (silent : list N) (nr hs hb he : N) : Prop := {
  rd_size : (0 < size)%nat /\ N.of_nat size < 65536; rd_nr : 1 <= nr < 256; rd_listens : listening tab silent nr;
  rd_run : exists es obs, xl_run size pre (xst_zero size) = Some (es, s, obs);
  rd_idle : x_prog s = Idle;
  rd_hs : first_reg HStartReq pre = Some hs; rd_hb : first_reg HBlockEnd pre = Some hb; rd_he : first_reg HEnd pre = Some he
}.
(** a download request: eight characters, a checksum and an identification, most significant byte first *)
Record request (name crc id : list byte) : Prop := {
  rq_name : length name = 8%nat; rq_crc : length crc = 2%nat; rq_id : length id = 4%nat; rq_bytes : bytes_ok (crc ++ id)
}.
(** the component the handlers see *)
Definition requested (s : xst) (tab : list modl) (nr : N) (name crc id : list byte) (c : comp) : Prop :=
  exists q, is_first (of_nr nr) tab q /\ c = Comp nr (name ++ [0]) (be crc) (be id) (c_index (x_comp s)) (m_type (entry tab q)).
(** a download from the start request through a number of blocks *)
Definition dl_ops (tab : list modl) (silent : list N) (nr : N) (name crc id : list byte) (maxb delay : N) (blks : list blk) : list xlop :=
  start_ops tab silent nr name crc id (accept nr maxb delay) ++ concat (map (blk_ops tab silent nr) blks).
Definition data_ops (tab : list modl) (silent : list N) (nr : N) (ms : list (list byte)) : list xlop :=
  map (fun m => LRx tab silent nr (0x15 :: m) nothing) ms.
Definition end_op (tab : list modl) (silent : list N) (nr : N) : xlop := LRx tab silent nr [0x17; 0; 0; 0; 0; 0; 0; 0] nothing.

(** control messages that have nothing to do with the download: to modules that are not there or silent, the first half of a
    long version request, version answers and start acknowledges of others, unknown codes *)
Definition known_codes : list N := [0x10; 0x11; 0x12; 0x13; 0x14; 0x15; 0x16; 0x17; 0x18; 0x19; 0x1A; 0x1B; 0x1C; 0x1D; 0x1E; 0x50].
Inductive unrelated : xlop -> Prop :=
| UnDeaf tab silent nr d p : ~ listening tab silent nr -> unrelated (LRx tab silent nr d p)
| UnCode tab silent nr d p : In (nth 0 d 0) [0x11; 0x18; 0x19] \/ ~ In (nth 0 d 0) known_codes -> unrelated (LRx tab silent nr d p).
(** [mixed a b]: [b] is [a] with unrelated messages anywhere in between *)
Inductive mixed : list xlop -> list xlop -> Prop :=
| MxNil : mixed [] []
| MxOp o a b : mixed a b -> mixed (o :: a) (o :: b)
| MxUn o a b : unrelated o -> mixed a b -> mixed a (o :: b).

(** the messages of an uploaded block: seven bytes each, the last one filled up with zeros; an empty block is one message *)
Fixpoint pieces (fuel : nat) (data : list byte) : list (list byte) :=
  match fuel with
  | O => []
  | S f => if (length data <=? 7)%nat then [data ++ repeat 0 (7 - length data)] else firstn 7 data :: pieces f (skipn 7 data)
  end.
Definition up_msgs (data : list byte) : list (list byte) := pieces (S (length data)) data.
(** block end of an upload: number of bytes and of data messages *)
Definition up_end (nr n k : N) : xobs := XFrame (ctl_id nr) (0x16 :: two n ++ two k ++ [0; 0; 0]).
Definition up_frames (nr : N) (data : list byte) : list xobs :=
  map (fun m => XFrame (ctl_id nr) (0x15 :: m)) (up_msgs data) ++ [up_end nr (N.of_nat (length data)) (N.of_nat (length (up_msgs data)))].

(** result of a registration after [before]: registering a second handler is refused, with one error for the handlers of
    downloads and one for those of uploads; the callbacks of the other services report nothing *)
Definition taken (k : hkind) : N :=
  match k with
  | HStart | HVersion | HStartReq | HBlockEnd | HEnd => E_DLOAD_ADD_HANDLE
  | HInfo | HUpStart | HBlockAck => E_ULOAD_ADD_HANDLE
  | _ => ERR_OK
  end.
Definition reg_result (before : list xlop) (k : hkind) : N :=
  match first_reg k before with None => ERR_OK | Some _ => taken k end.

(** answers: the version of a component, the size of an upload; numbers most significant byte first *)
Definition four (x : N) : list byte := [x / 16777216; x / 65536 mod 256; x / 256 mod 256; x mod 256].
Definition version_msg (nr index crc id : N) : xobs := XFrame (ctl_id nr) (0x18 :: index :: two crc ++ four id).
Definition info_msg (nr index size : N) : xobs := XFrame (ctl_id nr) (0x53 :: index :: four size ++ [0; 0]).
(** what follows the handler of a version request: nothing if the handler answers itself, the version as the handler left it,
    or its error *)
Definition version_reply (nr rc : N) (by_stack : bool) (c : comp) : list xobs :=
  if N.eq_dec rc 0 then if by_stack then [version_msg nr (c_index c) (c_crc c) (c_id c)] else [] else [term_msg nr rc].
Definition info_reply (nr rc : N) (by_stack : bool) (c : comp) (size : N) : list xobs :=
  if N.eq_dec rc 0 then if by_stack then [info_msg nr (c_index c) size] else [] else [term_msg nr rc].
(** a component with values of the C types *)
Record comp_ok (c : comp) : Prop := { co_index : c_index c < 256; co_crc : c_crc c < 65536; co_id : c_id c < 4294967296 }.
(** which handler a request is for *)
Definition asks (code : N) : option hkind :=
  if (code =? 0x10) || (code =? 0x12) then Some HVersion
  else if code =? 0x50 then Some HInfo
  else if code =? 0x17 then Some HEnd
  else if code =? 0x14 then Some HStartReq
  else if code =? 0x1E then Some HUpStart
  else None.
(** effect of a history: final state and observations *)
Definition effect {A} (r : option (A * xst * list xobs)) : option (xst * list xobs) :=
  match r with Some (_, s, o) => Some (s, o) | None => None end.
(** data messages of an upload *)
Definition is_data (o : xobs) : bool := match o with XFrame _ (c :: _) => c =? 0x15 | _ => false end.
Definition data_count (obs : list xobs) : N := N.of_nat (length (filter is_data obs)).
(** clock readings that never go back *)
Definition monotone (ticks : list N) : Prop := forall i j, (i <= j < length ticks)%nat -> nth i ticks 0 <= nth j ticks 0.

(** version requests that are answered with success, by handlers that look at and fill in the component they got *)
Inductive version_only : hprog -> Prop :=
| VoFin e z : version_only (HFin ERR_OK e z)
| VoGet k : (forall c, length (c_name c) = 9%nat -> version_only (k (AComp c))) -> version_only (HCall AGetComp k)
| VoSet c k : length (c_name c) = 9%nat -> version_only (k ADone) -> version_only (HCall (ASetComp c) k).
Inductive harmless : xlop -> Prop :=
| HaUn o : unrelated o -> harmless o
| HaVersion tab silent nr d p : In (nth 0 d 0) [0x10; 0x12] -> version_only p -> harmless (LRx tab silent nr d p).
Inductive interspersed : list xlop -> list xlop -> Prop :=
| InNil : interspersed [] []
| InOp o a b : interspersed a b -> interspersed (o :: a) (o :: b)
| InMore o a b : harmless o -> interspersed a b -> interspersed a (o :: b).
(** messages of eight bytes to modules with possible numbers; components the application hands over are complete *)
Definition numbered (o : xlop) : Prop :=
  match o with LRx _ _ nr d _ => 1 <= nr < 256 /\ length d = 8%nat | LStart c _ _ => length (c_name c) = 9%nat | _ => True end.
(** observations that do not belong to version requests *)
Definition not_version (o : xobs) : bool :=
  match o with XFrame _ (c :: _) => negb (c =? 0x18) | XCalled HVersion _ _ => false | _ => true end.
