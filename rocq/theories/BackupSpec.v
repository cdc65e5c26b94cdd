(** Specification of a backup and its restoration: what one stack uploads is downloaded to another one. *)
From Verif Require Import Words ErrModel NodeModel LookModel LookSpec XBufModel XBufSpec AsyncSpec XloadModel XloadSpec.

(** the contents of the frames sent, in order *)
Fixpoint payloads (os : list xobs) : list (list byte) :=
  match os with XFrame _ d :: r => d :: payloads r | _ :: r => payloads r | [] => [] end.
(** the master passes contents on, unchanged, to module [nr] of another stack, whose application handles a block end with [p] *)
Definition relay (tab : list modl) (silent : list N) (nr : N) (p : hprog) (ds : list (list byte)) : list xlop :=
  map (fun d => LRx tab silent nr d (if nth 0 d 0 =? 0x16 then p else nothing)) ds.
(** an application that reads [n] bytes and accepts the block; what it sees *)
Fixpoint reader (n : nat) : hprog := match n with O => HFin ERR_OK true 0 | S k => HCall (ABuf XGet) (fun _ => reader k) end.
Definition read_byte (x : byte) : xobs := XUsed XGet (XVal ERR_OK (Some x)).
(** buffer needed for a block: its messages of seven bytes, at least one *)
Definition room (data : list byte) : nat := 7 * Nat.max 1 ((length data + 6) / 7).
(** the upload of one block: the request with the name of the component, and the application uploading [data] *)
Definition upload_ops (tab : list modl) (silent : list N) (nr : N) (name : list byte) (l2 mb delay : N) (rest : list byte) (data : list byte) (ticks : list N) : list xlop :=
  [LRx tab silent nr (0x1D :: name) nothing;
   LRx tab silent nr (0x1E :: l2 :: two mb ++ delay :: rest) (HCall (AUpload data (N.of_nat (length data)) ticks) (fun _ => HFin ERR_OK true 0))].
(** the acknowledge of the master, and the application uploading the next block *)
Definition next_op (tab : list modl) (silent : list N) (nr : N) (d data : list byte) (ticks : list N) : xlop :=
  LRx tab silent nr (0x1A :: d) (HCall (AUpload data (N.of_nat (length data)) ticks) (fun _ => HFin ERR_OK true 0)).
(** a stack that can upload: a module that listens, no transfer running, the handlers of uploads registered *)
Record uploading (s : xst) (tab : list modl) (silent : list N) (nr hu ha : N) : Prop := {
  up_nr : 1 <= nr < 256; up_listens : listening tab silent nr; up_idle : x_prog s = Idle;
  up_hu : nth (hidx HUpStart) (x_hand s) None = Some hu; up_ha : nth (hidx HBlockAck) (x_hand s) None = Some ha
}.
(** [fewer a b]: [a] is [b] with at least one element missing *)
Inductive sub {A} : list A -> list A -> Prop :=
| SubNil : sub [] []
| SubKeep x a b : sub a b -> sub (x :: a) (x :: b)
| SubLose x a b : sub a b -> sub a (x :: b).
Definition fewer {A} (a b : list A) : Prop := sub a b /\ length a <> length b.
