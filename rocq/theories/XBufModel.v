(** Model of the download/upload ring buffer: source/xload/li_can_slv_xload_buffer.c.

    [size] is LI_CAN_SLV_XLOAD_BUFFER_SIZE_DLOAD (default 140, any value below 2^16).  Indices are [nat]: with
    size < 2^16 none of the uint16_t counters can wrap as long as they stay inside the buffer, which is proved.
    Not modelled: debug prints and the dump function (lines 86-90, 375-). *)
From Verif Require Import Words ErrModel.

(** io_can_errno.h: 0x037, 0x038 *)
Definition ERR_BUF_OVERFLOW : N := can_err 55.
Definition ERR_BUF_UNDERFLOW : N := can_err 56.

(** include/li_can_slv/xload/li_can_slv_xload_buffer_types.h li_can_slv_xload_buffer_t: ring buffer part *)
Record xbuf := XBuf {
  xb_data : list byte;
  xb_read : nat;
  xb_write : nat;
  xb_nr : nat;        (* nr_bytes *)
  xb_rstore : nat;    (* read_storage *)
  xb_nstore : nat     (* nr_bytes_storage *)
}.

(** static storage *)
Definition xb_zero (size : nat) : xbuf := XBuf (repeat 0 size) 0 0 0 0 0.

(** li_can_slv_xload_buffer.c:81-106 dload_add_byte_to_buffer; [None] = write outside data[] *)
Definition xb_add (size : nat) (b : xbuf) (x : byte) : option (xbuf * N) :=
  if (size <=? xb_nr b)%nat then Some (b, ERR_BUF_OVERFLOW)
  else match upd (xb_data b) (xb_write b) x with
       | None => None
       | Some d =>
           let w := if (xb_write b <? size - 1)%nat then (xb_write b + 1)%nat else O in
           Some (XBuf d (xb_read b) w (xb_nr b + 1)%nat (xb_rstore b) (xb_nstore b), ERR_OK)
       end.

(** li_can_slv_xload_buffer.c:114-134 xload_buffer_get_byte; [None] = read outside data[] *)
Definition xb_get (size : nat) (b : xbuf) : option (xbuf * (N * option byte)) :=
  if (xb_nr b =? 0)%nat then Some (b, (ERR_BUF_UNDERFLOW, None))
  else match nth_error (xb_data b) (xb_read b) with
       | None => None
       | Some x =>
           let r := if (xb_read b <? size - 1)%nat then (xb_read b + 1)%nat else O in
           Some (XBuf (xb_data b) r (xb_write b) (xb_nr b - 1)%nat (xb_rstore b) (xb_nstore b), (ERR_OK, Some x))
       end.

(** the loop of dload_get_str_byte / _uint16 / _uint32 (lines 148-155, 173-180, 198-205) *)
Fixpoint xb_get_chars (size : nat) (b : xbuf) (n : nat) : option (xbuf * (N * list byte)) :=
  match n with
  | O => Some (b, (ERR_OK, []))
  | S n' =>
      match xb_get size b with
      | None => None
      | Some (b1, (e, Some x)) =>
          match xb_get_chars size b1 n' with
          | None => None
          | Some (b2, (e2, xs)) => Some (b2, (e2, x :: xs))
          end
      | Some (b1, (e, None)) => Some (b1, (e, []))
      end
  end.

(** li_can_slv_xload_buffer.c:293-343 dload_hexchar_to_uint32_internal *)
Definition hex_digit (c : byte) : option N :=
  if (48 <=? c) && (c <=? 57) then Some (c - 48)
  else if (65 <=? c) && (c <=? 70) then Some (c - 55)
  else if (97 <=? c) && (c <=? 102) then Some (c - 87)
  else None.
Fixpoint hexchars (value : N) (cs : list byte) : N :=
  match cs with
  | [] => value
  | c :: r => match hex_digit c with
              | Some d => hexchars (u32 (u32 (N.shiftl value 4) + d)) r
              | None => value
              end
  end.

(** li_can_slv_xload_buffer.c:142-209: [n] characters, value cast to the result type by [cast] *)
Definition xb_get_hex (size : nat) (n : nat) (cast : N -> N) (b : xbuf) : option (xbuf * (N * option N)) :=
  match xb_get_chars size b n with
  | None => None
  | Some (b', (e, cs)) =>
      if e =? ERR_OK then Some (b', (ERR_OK, Some (cast (hexchars 0 cs)))) else Some (b', (e, None))
  end.
Definition xb_get_str_byte size := xb_get_hex size 2 u8.      (* 142-159 *)
Definition xb_get_str_uint16 size := xb_get_hex size 2 u16.   (* 167-184 *)
Definition xb_get_str_uint32 size := xb_get_hex size 4 u32.   (* 192-209 *)

(** li_can_slv_xload_buffer.c:216-220 xload_buffer_get_len *)
Definition xb_len (b : xbuf) : nat := xb_nr b.

(** li_can_slv_xload_buffer.c:226-231, 237-243 dload_store_buf_state, dload_restore_buf_state *)
Definition xb_store (b : xbuf) : xbuf :=
  XBuf (xb_data b) (xb_read b) (xb_write b) (xb_nr b) (xb_read b) (xb_nr b).
Definition xb_restore (b : xbuf) : xbuf :=
  XBuf (xb_data b) (xb_rstore b) (xb_write b) (xb_nstore b) (xb_rstore b) (xb_nstore b).

(** li_can_slv_xload_buffer.c:253-290 dload_add_str_to_buffer *)
Fixpoint xb_add_loop (size : nat) (b : xbuf) (src : list byte) : option (xbuf * N) :=
  match src with
  | [] => Some (b, ERR_OK)
  | x :: r => match xb_add size b x with
              | None => None
              | Some (b1, e) => if e =? ERR_OK then xb_add_loop size b1 r else Some (b1, e)
              end
  end.
Definition xb_add_str (size : nat) (b : xbuf) (src : list byte) : option (xbuf * N) :=
  if (length src <? size - xb_nr b)%nat then xb_add_loop size b src
  else Some (b, ERR_BUF_OVERFLOW).

(** li_can_slv_xload_buffer.c:350-370 dload_remove_bytes *)
Definition xb_remove (size : nat) (b : xbuf) (num : nat) : xbuf * N :=
  if (xb_nr b <? num)%nat then (b, ERR_BUF_UNDERFLOW)
  else
    let w := if (num <=? xb_write b)%nat then (xb_write b - num)%nat else (size - num + xb_write b)%nat in
    (XBuf (xb_data b) (xb_read b) w (xb_nr b - num)%nat (xb_rstore b) (xb_nstore b), ERR_OK).

(** calls as issued by the users of the buffer *)
Inductive xop :=
| XAdd (x : byte)
| XGet
| XHexByte
| XHex16
| XHex32
| XLen
| XAddStr (src : list byte)
| XRemove (num : nat)
| XStore
| XRestore.

Inductive xout :=
| XErr (e : N)
| XVal (e : N) (v : option N)
| XLenIs (n : nat).

Definition xb_step (size : nat) (b : xbuf) (o : xop) : option (xbuf * xout) :=
  let lift r := match r with Some (b', (e, v)) => Some (b', XVal e v) | None => None end in
  match o with
  | XAdd x => match xb_add size b x with Some (b', e) => Some (b', XErr e) | None => None end
  | XGet => lift (xb_get size b)
  | XHexByte => lift (xb_get_str_byte size b)
  | XHex16 => lift (xb_get_str_uint16 size b)
  | XHex32 => lift (xb_get_str_uint32 size b)
  | XLen => Some (b, XLenIs (xb_len b))
  | XAddStr s => match xb_add_str size b s with Some (b', e) => Some (b', XErr e) | None => None end
  | XRemove n => let '(b', e) := xb_remove size b n in Some (b', XErr e)
  | XStore => Some (xb_store b, XErr ERR_OK)
  | XRestore => Some (xb_restore b, XErr ERR_OK)
  end.

Fixpoint xb_run (size : nat) (b : xbuf) (ops : list xop) : option (xbuf * list xout) :=
  match ops with
  | [] => Some (b, [])
  | o :: rest =>
      match xb_step size b o with
      | None => None
      | Some (b1, out) =>
          match xb_run size b1 rest with
          | None => None
          | Some (b2, outs) => Some (b2, out :: outs)
          end
      end
  end.
