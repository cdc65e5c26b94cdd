(** Module lookups and getters of the configuration table, and the decoding of identifiers by the receive handlers.
    The table is the list of entries of NodeModel. *)
From Verif Require Import Words ErrModel NodeModel.

(** strcmp(a, b) == 0. A list without a NUL is read as if one followed. *)
Fixpoint strcmp_eq (a b : list byte) : bool :=
  match a with
  | [] => hd 0 b =? 0
  | x :: t => if x =? hd 0 b then (if x =? 0 then true else strcmp_eq t (tl b)) else false
  end.

(** io_can_config.c:1483-1498 can_config_module_nr_valid: result (position, silent state, found). The loop increments the
    position also in the round that finds the entry; the decrement after the loop undoes this, and for an unknown
    number the position is that of the last entry. Position 0 with an empty table would wrap; tables are not empty. *)
Fixpoint nr_valid_loop (tab : list modl) (nr : N) (pos : nat) : nat * N :=
  match tab with
  | [] => (pos, 0)
  | m :: t => if m_nr m =? nr then (S pos, 1) else nr_valid_loop t nr (S pos)
  end.
Definition nr_valid (tab : list modl) (silent : list N) (nr : N) : nat * N * N :=
  let (pos, found) := nr_valid_loop tab nr 0 in
  ((pos - 1)%nat, nth (pos - 1) silent 0, found).

(** io_can_config.c:1652-1670 can_config_module_type_valid: result (error, position) *)
Fixpoint type_valid_loop (tab : list modl) (type : list byte) (i : nat) : N * nat :=
  match tab with
  | [] => (E_TYPE_NOT_FOUND, 0%nat)
  | m :: t => if strcmp_eq (m_type m) type then (ERR_OK, i) else type_valid_loop t type (S i)
  end.
Definition type_valid (tab : list modl) (type : list byte) : N * nat := type_valid_loop tab type 0.

(** io_can_config.c:2503-2519 get_table_pos_from_type_and_actual_module_number and 1678-1697 can_config_module_valid *)
Fixpoint pos_type_nr (tab : list modl) (type : list byte) (nr : N) (i : nat) : nat :=
  match tab with
  | [] => i
  | m :: t => if strn_eq 5 type (m_type m) then (if m_nr m =? nr then i else pos_type_nr t type nr (S i)) else pos_type_nr t type nr (S i)
  end.
Definition module_valid (tab : list modl) (type : list byte) (nr : N) : N * nat :=
  let tmp := pos_type_nr tab type nr 0 in
  if (tmp <? length tab)%nat then (ERR_OK, tmp) else (E_MODULE_NOT_FOUND, 0%nat).

(** io_can_config.c:1506-1518 can_config_get_module_type, 1539-1551 can_config_get_module_nr: None stands for
    ERR_MSG_CAN_CONFIG_MODULE_WRONG_TABLE_POS *)
Definition get_type (tab : list modl) (pos : nat) : option (list byte) :=
  if (pos <? length tab)%nat then Some (m_type (nth pos tab modl0)) else None.
Definition get_nr (tab : list modl) (pos : nat) : option N :=
  if (pos <? length tab)%nat then Some (m_nr (nth pos tab modl0)) else None.
(** io_can_config.c:1061-1078 can_config_get_module: result (error, entry) *)
Definition get_module (tab : list modl) (type : list byte) : N * option modl :=
  let (e, pos) := type_valid tab type in
  if e =? ERR_OK then (ERR_OK, nth_error tab pos) else (E_TYPE_NOT_FOUND, None).
(** io_can_config.c:1755-1770 can_config_get_module_nr_by_type: result (error, number) *)
Definition nr_by_type (tab : list modl) (type : list byte) : N * N :=
  let (e, pos) := type_valid tab type in
  if e =? ERR_OK then (ERR_OK, m_nr (nth pos tab modl0)) else (e, NR_DEF).

(** ** identifiers *)
(** li_can_slv_config_defines.h:98-130: base identifiers of the slave's message classes; the object number counts only
    for process data *)
Inductive idclass := SysRx | SysTx | DataRx | DataTx | CtrlRx | CtrlTx | AsyncRx | AsyncTx.
Definition class_base (c : idclass) : N :=
  match c with
  | SysRx => 2 | SysTx => 3 | DataRx => 512 | DataTx => 1024
  | CtrlRx => 1536 | CtrlTx => 1537 | AsyncRx => 1538 | AsyncTx => 1539
  end.
Definition has_objects (c : idclass) : bool := match c with DataRx | DataTx => true | _ => false end.
(** base + ((nr - 1) << 2) + object in uint16_t, as computed at io_can_main.c:443, 537; io_can_config.c:2209, 2291, 2334;
    io_can_async.c:640-756 (control and data transmission) *)
Definition ident_of (c : idclass) (nr : N) (obj : nat) : N := can_ident (class_base c) nr (if has_objects c then obj else 0%nat).
(** module number from an identifier: io_can_sync_handler.c:126 (system messages), io_can_sync.c:505-518 (process data),
    io_can_async_handler.c:85 (asynchronous messages); object number io_can_sync.c:501 *)
Definition decode_nr (c : idclass) (id : N) : N :=
  match c with
  | SysRx | SysTx => N.land (N.shiftr id 2) 127 + 1
  | DataRx => rx_nr id
  | DataTx => u16 ((id + 262144 - 1024) / 4 + 1)
  | _ => u16 ((id + 262144 - 1536) / 4 + 1)
  end.
Definition decode_obj (id : N) : N := N.land id 3.
