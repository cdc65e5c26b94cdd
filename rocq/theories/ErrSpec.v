(** Specification of the error subsystem, independent of the ring buffer. *)
From Verif Require Import Words ErrModel.

(** The entry a caller of [send_full] asked to be stored; FATAL messages are not stored. *)
Definition entry_of (code info prio group subgroup module_nr : N) : entry :=
  Entry code prio module_nr info (u8 (subgroup + 16 * group)).
Definition is_fatal (prio : N) : bool := prio =? 15.

(** An ideal unbounded first-in first-out error memory: (anything sent yet?, pending entries). *)
Definition fifo := (bool * list entry)%type.

Definition fifo_step (s : fifo) (o : eop) : fifo * eout :=
  let '(started, l) := s in
  match o with
  | ESend c i p g sg m =>
      if is_fatal p then ((true, l), OSend ERR_OK)
      else ((true, l ++ [entry_of c i p g sg m]), OSend ERR_OK)
  | EGet =>
      if negb started then (s, OGet ERR_NOT_INITIALIZED None)
      else match l with
           | [] => (s, OGet ERR_NO_ENTRY None)
           | e :: l' => ((started, l'), OGet ERR_OK (Some e))
           end
  | ECount => (s, OCount (length l))
  end.

Fixpoint fifo_run (s : fifo) (ops : list eop) : fifo * list eout :=
  match ops with
  | [] => (s, [])
  | o :: rest => let '(s1, out) := fifo_step s o in
                 let '(s2, outs) := fifo_run s1 rest in (s2, out :: outs)
  end.

(** entries pending after an operation sequence *)
Definition pending (ops : list eop) : list entry := snd (fst (fifo_run (false, []) ops)).

(** The sequence never fills a queue of [size] slots: at most [size-2] entries pending at any time
    (the code keeps the last two slots for the entry that overflows and the 'queue full' entry). *)
Definition never_fills (size : nat) (ops : list eop) : Prop :=
  forall n, (length (pending (firstn n ops)) + 2 <= size)%nat.

(** entries successfully entered / read, straight from the call sequence *)
Fixpoint sent (ops : list eop) : list entry :=
  match ops with
  | [] => []
  | ESend c i p g sg m :: r => if is_fatal p then sent r else entry_of c i p g sg m :: sent r
  | _ :: r => sent r
  end.
Fixpoint got (outs : list eout) : list entry :=
  match outs with
  | [] => []
  | OGet _ (Some e) :: r => e :: got r
  | _ :: r => got r
  end.

(** The bounded error memory the code intends ([size] slots): below the limit append; the entry that
    leaves less than one free slot is followed by a 'queue full' entry; a full memory rejects. *)
Definition queue_full_entry (module_nr : N) : entry :=
  Entry 1962934383 (* 0x7500006F *) 13 module_nr 0 117 (* 0x75 *).

Definition bounded_step (size : nat) (s : fifo) (o : eop) : fifo * eout :=
  let '(started, l) := s in
  match o with
  | ESend c i p g sg m =>
      if is_fatal p then ((true, l), OSend ERR_OK)
      else if (length l + 2 <? size)%nat then ((true, l ++ [entry_of c i p g sg m]), OSend ERR_OK)
      else if (length l + 2 =? size)%nat then
        ((true, l ++ [entry_of c i p g sg m; queue_full_entry m]), OSend ERR_QUEUE_FULL)
      else ((true, l), OSend ERR_QUEUE_FULL)
  | _ => fifo_step s o
  end.

Fixpoint bounded_run (size : nat) (s : fifo) (ops : list eop) : fifo * list eout :=
  match ops with
  | [] => (s, [])
  | o :: rest => let '(s1, out) := bounded_step size s o in
                 let '(s2, outs) := bounded_run size s1 rest in (s2, out :: outs)
  end.

(** A sequence is hazardous if the memory overflows at a moment when the number of entries read so far
    is a multiple of the size (in particular: before the first read) and, later, another entry is accepted. *)
Fixpoint hazard (size : nat) (s : fifo) (reads : nat) (armed : bool) (ops : list eop) : bool :=
  match ops with
  | [] => false
  | o :: rest =>
      let l := snd s in
      let '(s1, out) := bounded_step size s o in
      match o with
      | ESend _ _ p _ _ _ =>
          if is_fatal p || (size <? length l + 2)%nat then hazard size s1 reads armed rest
          else if armed then true
          else hazard size s1 reads ((length l + 2 =? size)%nat && (reads mod size =? 0)%nat) rest
      | EGet => hazard size s1 (match out with OGet _ (Some _) => S reads | _ => reads end) armed rest
      | ECount => hazard size s1 reads armed rest
      end
  end.

(** The build without a queue remembers one error: [newest] the last one entered (if any), [unread] whether it was
    entered after the last reading. *)
Fixpoint newest_from (l : option entry) (ops : list eop) : option entry :=
  match ops with
  | [] => l
  | ESend c i p g sg m :: r => newest_from (if is_fatal p then l else Some (entry_of c i p g sg m)) r
  | _ :: r => newest_from l r
  end.
Definition newest := newest_from None.
Fixpoint unread_from (b : bool) (ops : list eop) : bool :=
  match ops with
  | [] => b
  | ESend _ _ p _ _ _ :: r => unread_from (b || negb (is_fatal p)) r
  | EGet :: r => unread_from false r
  | ECount :: r => unread_from b r
  end.
Definition unread := unread_from false.
