(** The application takes bytes out of the download buffer (xload_buffer_get_byte, xload/li_can_slv_xload_buffer.c:114-134) while
    messages of the master arrive: the receive interrupt runs complete calls of dload_add_byte_to_buffer (81-106, seven per data
    message, xload/li_can_slv_xload.c:590-620) and of dload_remove_bytes (350-370, at the end of a block, li_can_slv_xload.c:662)
    between any two memory accesses of the application.  The functions called in the interrupt are those of XBufModel.
    Simplified: the three reads of the read index in one call are one access each with the use of the value, as no interrupt
    writes the index; a data message is seven additions with no access of the application between them, which is a special
    case of the schedules here. *)
From Verif Require Import Words ErrModel XBufModel.

(** where a call of xload_buffer_get_byte stands *)
Inductive gpoint :=
| PCheck                        (* before line 116: nr_bytes <= 0 *)
| PLoad                         (* before line 121: *data = data[read] *)
| PDec (x : byte)               (* before the read of nr_bytes in line 122 *)
| PStore (x : byte) (k : nat)   (* before its write; [k] is the value read *)
| PNext (x : byte).             (* before lines 125-132: the read index *)
Record gsys := GSys { g_b : xbuf; g_task : option gpoint }.
(** what happens: the application starts a call, the call makes its next access, an interrupt *)
Inductive gev := VCall | VAcc | VAdd (x : byte) | VRemove (k : nat).
(** what can be seen: a byte is given back to the application, the call finds the buffer empty, bytes are added or refused,
    removed or not; [GTaken] is the moment the number of bytes is decreased *)
Inductive gobs := GQuiet | GTaken (x : byte) | GGot (x : byte) | GEmpty | GAdded (x : byte) | GRefused (x : byte) | GRemoved (k : nat) | GNotRemoved (k : nat).

Definition set_nr (b : xbuf) (n : nat) : xbuf := XBuf (xb_data b) (xb_read b) (xb_write b) n (xb_rstore b) (xb_nstore b).
Definition set_rd (b : xbuf) (r : nat) : xbuf := XBuf (xb_data b) r (xb_write b) (xb_nr b) (xb_rstore b) (xb_nstore b).
(** nr_bytes-- on a uint16_t *)
Definition dec16 (k : nat) : nat := match k with O => N.to_nat 65535 | S k' => k' end.
(** lines 125-132 *)
Definition next_read (size : nat) (b : xbuf) : nat := if (xb_read b <? size - 1)%nat then (xb_read b + 1)%nat else O.

(** one event; [None] = access outside of data[] or a second call of the application during a call, which is no schedule *)
Definition gstep (size : nat) (s : gsys) (e : gev) : option (gsys * gobs) :=
  match e with
  | VCall => match g_task s with None => Some (GSys (g_b s) (Some PCheck), GQuiet) | Some _ => None end
  | VAdd x => match xb_add size (g_b s) x with
              | None => None
              | Some (b, err) => Some (GSys b (g_task s), if err =? ERR_OK then GAdded x else GRefused x)
              end
  | VRemove k => let '(b, err) := xb_remove size (g_b s) k in Some (GSys b (g_task s), if err =? ERR_OK then GRemoved k else GNotRemoved k)
  | VAcc =>
      match g_task s with
      | None => Some (s, GQuiet)
      | Some PCheck => if (xb_nr (g_b s) =? 0)%nat then Some (GSys (g_b s) None, GEmpty) else Some (GSys (g_b s) (Some PLoad), GQuiet)
      | Some PLoad => match nth_error (xb_data (g_b s)) (xb_read (g_b s)) with
                      | None => None
                      | Some x => Some (GSys (g_b s) (Some (PDec x)), GQuiet)
                      end
      | Some (PDec x) => Some (GSys (g_b s) (Some (PStore x (xb_nr (g_b s)))), GQuiet)
      | Some (PStore x k) => Some (GSys (set_nr (g_b s) (dec16 k)) (Some (PNext x)), GTaken x)
      | Some (PNext x) => Some (GSys (set_rd (g_b s) (next_read size (g_b s))) None, GGot x)
      end
  end.
Fixpoint grun (size : nat) (s : gsys) (es : list gev) : option (gsys * list gobs) :=
  match es with
  | [] => Some (s, [])
  | e :: t => match gstep size s e with
              | None => None
              | Some (s1, o) => match grun size s1 t with None => None | Some (s2, os) => Some (s2, o :: os) end
              end
  end.
Definition gstart (size : nat) : gsys := GSys (xb_zero size) None.
