(** Model of the persistent download information, source/xload/li_can_slv_xload_info.c, and of the two interface functions
    that use it, lcsa_init and lcsa_start (source/api/li_can_slv_api.c:65-288).  Line numbers are those of
    li_can_slv_xload_info.c unless a file is named.

    The information is a structure in memory that survives a reset.  It is modelled as its 38 bytes, so that a reset can
    hit between any two byte stores.  Layout (include/li_can_slv/xload/li_can_slv_xload_info.h:85-115, packed, build with
    LI_CAN_SLV_XLOAD_INFO_USER, little-endian, 4-byte enumerations, the component with its natural alignment):
      0-3 mode | 4-31 component | 32-33 can_baudrate | 34 user1 | 35 user2 | 36-37 crc
    component: 4-5 module_nr | 6-14 name | 15 gap | 16-17 crc | 18-19 gap | 20-23 download_id | 24 index | 25-29 type |
    30-31 gap.  Not modelled: LI_CAN_SLV_XLOAD_INFO_BACKWARD_COMPATIBILITY (reset reason, error words). *)
From Verif Require Import Words ErrModel NodeModel XloadModel.

Definition E_XLOAD_INFO_BAD_CRC := can_err 116.

Definition mem := list byte.
Definition OFF_MODE : nat := 0.
Definition OFF_COMP : nat := 4.
Definition OFF_NR : nat := 4.
Definition OFF_NAME : nat := 6.
Definition OFF_CCRC : nat := 16.
Definition OFF_ID : nat := 20.
Definition OFF_INDEX : nat := 24.
Definition OFF_TYPE : nat := 25.
Definition OFF_BAUD : nat := 32.
Definition OFF_USER1 : nat := 34.
Definition OFF_USER2 : nat := 35.
Definition OFF_CRC : nat := 36.
Definition SZ_COMP : nat := 28.
Definition SZ_INFO : nat := 38.

(** the modes, include/li_can_slv/xload/li_can_slv_xload_info.h:63-71 *)
Definition MODE_REBOOT := 0.
Definition MODE_INN := 1.
Definition MODE_OUT := 2.
Definition MODE_ACKN := 3.
Definition MODE_RUNNING := 4.
Definition MODE_FATAL := 5.

(** little-endian bytes of a value in [n] bytes, and back *)
Fixpoint le_bytes (n : nat) (x : N) : list byte :=
  match n with O => [] | S n' => x mod 256 :: le_bytes n' (x / 256) end.
Fixpoint le_val (l : list byte) : N := match l with [] => 0 | b :: t => b + 256 * le_val t end.

(** one byte store, and a run of stores *)
Definition store := (nat * byte)%type.
Definition st1 (m : mem) (s : store) : mem := set_nth m (fst s) (snd s).
Definition apply (ws : list store) (m : mem) : mem := fold_left st1 ws m.
(** stores of a value or an array at an offset, ascending (simplification: ascending order of the bytes) *)
Definition stores_at (off : nat) (bs : list byte) : list store := combine (seq off (length bs)) bs.
(** the bytes at an offset *)
Definition slice (off n : nat) (m : mem) : list byte := firstn n (skipn off m).

(** the checksum functions are supplied by the port: li_can_slv_xload_info_crc16_init and _crc16_update, lines 70-71;
    both return uint16_t *)
Record crcf := CrcF { crc16_init : N; crc16_update : N -> list byte -> N }.

(** the part of the structure the checksum covers: sizeof(li_can_slv_xload_info_t) - sizeof(uint16_t) bytes *)
Definition covered (m : mem) : list byte := firstn OFF_CRC m.
Definition crc_field (m : mem) : N := le_val (slice OFF_CRC 2 m).

(** 299-308 li_can_slv_xload_info_update_crc: two 16-bit stores, the initial value and then the result *)
Definition update_crc (C : crcf) (m : mem) : list store :=
  let c0 := u16 (crc16_init C) in
  stores_at OFF_CRC (le_bytes 2 c0) ++ stores_at OFF_CRC (le_bytes 2 (u16 (crc16_update C c0 (covered m)))).

(** 149-169 li_can_slv_xload_info_check_crc *)
Definition check_crc (C : crcf) (m : mem) : bool :=
  u16 (crc16_update C (u16 (crc16_init C)) (covered m)) =? crc_field m.

(** 129-143 li_can_slv_xload_info_clean, the stores before the checksum *)
Definition clean_stores : list store :=
  stores_at OFF_MODE (le_bytes 4 MODE_RUNNING) ++
  stores_at OFF_NR (le_bytes 2 125) ++
  stores_at OFF_NAME (repeat 0 8) ++
  stores_at OFF_CCRC (le_bytes 2 0) ++
  stores_at OFF_ID (le_bytes 4 0) ++
  stores_at OFF_INDEX [0] ++
  stores_at OFF_USER1 [0] ++
  stores_at OFF_USER2 [0] ++
  stores_at OFF_TYPE (repeat 0 5).

(** the operations on the information *)
Inductive iop :=
| IInit                       (* 77-124 li_can_slv_xload_info_init *)
| IClean                      (* 129-143 li_can_slv_xload_info_clean *)
| IMode (mode : N)            (* 175-179 li_can_slv_xload_info_set_mode *)
| IComp (c : list byte)       (* 224-228 li_can_slv_xload_info_set_dload_component, the bytes of the component *)
| IBaud (b : N)               (* 243-247 li_can_slv_xload_info_set_can_baudrate *)
| IUser1 (b : N)              (* 261-265 li_can_slv_xload_info_set_user1 *)
| IUser2 (b : N).             (* 278-282 li_can_slv_xload_info_set_user2 *)

(** the stores to the fields an operation does before it updates the checksum; [None]: it stores nothing at all *)
Definition field_stores (C : crcf) (m : mem) (o : iop) : option (list store) :=
  match o with
  | IInit => if check_crc C m then None else Some clean_stores
  | IClean => Some clean_stores
  | IMode v => Some (stores_at OFF_MODE (le_bytes 4 v))
  | IComp c => Some (stores_at OFF_COMP (firstn SZ_COMP c))
  | IBaud b => Some (stores_at OFF_BAUD (le_bytes 2 b))
  | IUser1 b => Some (stores_at OFF_USER1 [u8 b])
  | IUser2 b => Some (stores_at OFF_USER2 [u8 b])
  end.
(** all stores of an operation, in order: the fields, then the checksum *)
Definition op_stores (C : crcf) (m : mem) (o : iop) : list store :=
  match field_stores C m o with
  | None => []
  | Some ws => ws ++ update_crc C (apply ws m)
  end.
(** the operation completed *)
Definition do_op (C : crcf) (m : mem) (o : iop) : mem := apply (op_stores C m o) m.
(** the operation interrupted after [k] byte stores *)
Definition cut_op (C : crcf) (k : nat) (m : mem) (o : iop) : mem := apply (firstn k (op_stores C m o)) m.
(** what li_can_slv_xload_info_init returns, lines 84-123 *)
Definition init_rc (C : crcf) (m : mem) : N := if check_crc C m then ERR_OK else E_XLOAD_INFO_BAD_CRC.

Definition do_ops (C : crcf) (m : mem) (os : list iop) : mem := fold_left (do_op C) os m.

(** the getters: get_mode 185-188, get_dload_component 235-238 (the module number in it), get_can_baudrate 252-255,
    get_user1 270-273, get_user2 287-290 *)
Definition get_mode (m : mem) : N := le_val (slice OFF_MODE 4 m).
Definition get_comp (m : mem) : list byte := slice OFF_COMP SZ_COMP m.
Definition get_nr (m : mem) : N := le_val (slice OFF_NR 2 m).
Definition get_baud (m : mem) : N := le_val (slice OFF_BAUD 2 m).
Definition get_user1 (m : mem) : N := le_val (slice OFF_USER1 1 m).
Definition get_user2 (m : mem) : N := le_val (slice OFF_USER2 1 m).

(** ** lcsa_init and lcsa_start, source/api/li_can_slv_api.c *)

(** lcsa_state_t, include/li_can_slv/api/li_can_slv_api_types.h:53-60 *)
Definition LST_RUNNING := 0.
Definition LST_DOWNLOAD := 1.
Definition LST_RECONNECT := 2.
Definition LST_INIT := 3.
Definition LST_STOPPED := 4.

(** the information, li_can_slv_state (io_can.c:70), the start-up baud rate and the download variables *)
Record api := Api { a_mem : mem; a_state : N; a_startup : N; a_x : xst }.

(** 65-97 lcsa_init: the rate passed to li_can_slv_init and the state; [rc] is the result of li_can_slv_init, which is the
    result of lcsa_init.  The reported message (can_error_sys_error_send_full) is not modelled. *)
Definition lcsa_init (C : crcf) (baud rc : N) (a : api) : N * api :=
  let m := do_op C (a_mem a) IInit in
  let mode := get_mode m in
  if (mode =? MODE_ACKN) || (mode =? MODE_OUT) || (mode =? MODE_REBOOT)
  then (rc, Api m LST_DOWNLOAD (get_baud m) (a_x a))
  else (rc, Api m (a_state a) baud (a_x a)).

(** outcomes of the calls of lcsa_start: li_can_slv_reconnect_init, lcsa_set_baudrate, and li_can_slv_set_node_mode for
    operational and for listen-only (the result for stopped is ignored, lines 144, 173, 189, 239) *)
Record souts := SOuts { so_rinit : N; so_baud : N; so_oper : N; so_listen : N }.

(** 100-260 lcsa_start up to the acknowledge: the result so far and the state.  [rec]: LI_CAN_SLV_RECONNECT.  Not modelled:
    LI_CAN_SLV_UNKNOWN_MODULE and LI_CAN_SLV_MAIN_MON. *)
Definition start_head (rec : bool) (o : souts) (st : N) : N * N :=
  if rec then
    if so_rinit o =? ERR_OK then
      if st =? LST_DOWNLOAD
      then (so_oper o, if so_oper o =? ERR_OK then LST_RUNNING else st)  (* 138-166: the result of set_baudrate is overwritten *)
      else (so_listen o, st)                                              (* 168-185: likewise *)
    else (so_rinit o, st)                                                 (* 187-204 *)
  else
    if so_baud o =? ERR_OK                                                (* 238-258 *)
    then (so_oper o, if so_oper o =? ERR_OK then LST_RUNNING else st)
    else (so_baud o, st).

(** the effect on the download variables of li_can_slv_dload_end_ackn, li_can_slv_xload.c:821-836, and what it sends *)
Definition ack_of (nr : N) (x : xst) : xst * list xobs * N :=
  match end_ackn nr x with Some (rc, x', obs) => (x', obs, rc) | None => (x, [], ERR_OK) end.

(** 100-288 lcsa_start; [cut]: a reset after that many byte stores of the mode (the acknowledge has been given to the
    controller before) *)
Definition lcsa_start_cut (C : crcf) (rec : bool) (o : souts) (cut : option nat) (a : api) : N * api * list xobs :=
  let '(err, st) := start_head rec o (a_state a) in
  if err =? ERR_OK then
    if get_mode (a_mem a) =? MODE_ACKN then
      let '(x', obs, rc) := ack_of (get_nr (a_mem a)) (a_x a) in
      let m' := match cut with
                | None => do_op C (a_mem a) (IMode MODE_RUNNING)
                | Some k => cut_op C k (a_mem a) (IMode MODE_RUNNING)
                end in
      (rc, Api m' LST_RUNNING (a_startup a) x', obs)
    else (err, Api (a_mem a) LST_RUNNING (a_startup a) (a_x a), [])
  else (err, Api (a_mem a) st (a_startup a) (a_x a), []).
Definition lcsa_start (C : crcf) (rec : bool) (o : souts) (a : api) : N * api * list xobs := lcsa_start_cut C rec o None a.

(** a reset: the information and nothing else survives *)
Definition reset (size : nat) (a : api) : api := Api (a_mem a) LST_INIT 0 (xst_zero size).

(** histories of initialisations, starts and resets *)
Inductive aop := ABoot (baud rc : N) | AStart (o : souts) | AReset.
Definition astep (C : crcf) (rec : bool) (size : nat) (a : api) (o : aop) : N * api * list xobs :=
  match o with
  | ABoot b rc => let '(r, a') := lcsa_init C b rc a in (r, a', [])
  | AStart so => lcsa_start C rec so a
  | AReset => (ERR_OK, reset size a, [])
  end.
Fixpoint aruns (C : crcf) (rec : bool) (size : nat) (a : api) (os : list aop) : list (aop * N * list xobs) * api :=
  match os with
  | [] => ([], a)
  | o :: t => let '(r, a1, obs) := astep C rec size a o in
              let '(tr, a2) := aruns C rec size a1 t in ((o, r, obs) :: tr, a2)
  end.
