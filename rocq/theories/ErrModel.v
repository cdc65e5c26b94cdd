(** Model of the error reporting subsystem: source/error/io_can_error.c
    and the service code macros of include/li_can_slv/error/io_can_errno.h.

    Both builds are modelled: with LI_CAN_SLV_SYS_ERROR_QUEUE (ring buffer) and without
    (one entry, last one wins).  Not modelled: ERROR_MAIN_MON forwarding, the empty
    per-priority switch at io_can_error.c:283-314 (all branches do nothing). *)
From Verif Require Import Words.

(** include/li_can_slv/error/io_can_errno.h:89 MSG_SG_SHIFT applied to
    MSG_SUBGROUP_CAN_CAN (line 81): (0x05000000 >> 12) = 0x5000, or-ed with the number. *)
Definition can_err (n : N) : N := 20480 + n.

(** io_can_errno.h:102 *)
Definition ERR_OK : N := 0.
(** io_can_errno.h: error numbers used here (0x06F, 0x070, 0x071 of subgroup CAN_CAN) *)
Definition ERR_QUEUE_FULL : N := can_err 111.
Definition ERR_NOT_INITIALIZED : N := can_err 112.
Definition ERR_NO_ENTRY : N := can_err 113.
(** ERR_SYS_ERR_QUEUE_INDEX_TOO_BIG (io_can_error.c:442) is not defined anywhere in the
    repository; modelled as a value of its own. *)
Definition ERR_INDEX_TOO_BIG : N := 65535.

(** io_can_errno.h:62, 64-66 *)
Definition MSG_GROUP_CAN : N := 1879048192.      (* 0x70000000 *)
Definition MSG_CODE_MASK : N := 16777215.        (* 0x00FFFFFF *)
Definition MSG_SUBGROUP_MASK : N := 251658240.   (* 0x0F000000 *)
Definition MSG_GROUP_MASK : N := 4026531840.     (* 0xF0000000 *)

(** complement of a 32-bit word (C operator ~ on msg_code_t) *)
Definition not32 (x : N) : N := N.lxor x 4294967295.

(** io_can_errno.h:91-93 *)
Definition msg_sg_expand_code (x : N) : N := N.land x (not32 (N.shiftr MSG_SUBGROUP_MASK 12)).
Definition msg_sg_expand_group (x : N) : N := N.land (u32 (N.shiftl x 12)) MSG_SUBGROUP_MASK.
Definition msg_sg_expand (x : N) : N := N.lor (msg_sg_expand_group x) (msg_sg_expand_code x).
(** io_can_errno.h:96-99 *)
Definition msg_extract_code (x : N) : N := N.land x MSG_CODE_MASK.
Definition msg_extract_subgroup (x : N) : N := u8 (N.shiftr (N.land x MSG_SUBGROUP_MASK) 24).
Definition msg_extract_group (x : N) : N := u8 (N.shiftr (N.land x MSG_GROUP_MASK) 28).
Definition msg_extract_group_subgroup (x : N) : N :=
  u8 (N.shiftr (N.land x (N.lor MSG_GROUP_MASK MSG_SUBGROUP_MASK)) 24).

(** include/li_can_slv/error/li_can_slv_error_types.h:68-82 *)
Definition LVL_UNDEFINED : N := 0.
Definition LVL_INFO : N := 4.
Definition LVL_WARNING : N := 8.
Definition LVL_ERROR : N := 10.
Definition LVL_CRITICAL : N := 13.
Definition LVL_FATAL : N := 15.

(** io_can_error.c:55-62 can_error_sys_error_queue_entry_t *)
Record entry := Entry {
  e_code : N;      (* msg_code *)
  e_prio : N;      (* priority *)
  e_module : N;    (* module_nr *)
  e_info : N;      (* add_info *)
  e_group : N      (* group_subgroup *)
}.

(** io_can_error.c:510-516, the value every slot is initialised with *)
Definition blank_entry : entry := Entry ERR_OK LVL_UNDEFINED 0 0 0.

(** io_can_error.c:69-75 can_error_sys_error_queue_t plus the state flag of line 107.
    [q_slots] has LI_CAN_SLV_ERROR_SYSERR_QUEUE_SIZE entries. *)
Record equeue := EQueue {
  q_ready : bool;
  q_slots : list entry;
  q_in : nat;
  q_out : nat;
  q_count : nat
}.

(** io_can_error.c:106-107: static storage, state CAN_ERR_SYS_NOT_INITIALIZED *)
Definition eq_reset (size : nat) : equeue := EQueue false (repeat blank_entry size) 0 0 0.

(** io_can_error.c:502-521 can_error_init *)
Definition eq_init (size : nat) : equeue := EQueue true (repeat blank_entry size) 0 0 0.

(** io_can_error.c:233-280 the queue-full message that is appended in the last free slot *)
Definition full_code : N := N.lor (msg_sg_expand ERR_QUEUE_FULL) MSG_GROUP_CAN.
Definition full_entry (module_nr : N) : entry :=
  Entry full_code LVL_CRITICAL module_nr 0 (msg_extract_group_subgroup full_code).

(** io_can_error.c:181-322 can_error_sys_error_send_full (queue build).
    [None] = write outside error_syserr_queue[].  Lines 228-280:
    free = SIZE - (count + 2); the second increment of in_next_idx (line 280) has no modulo. *)
Definition eq_send_full (size : nat) (q0 : equeue) (code info prio group subgroup module_nr : N)
  : option (equeue * N) :=
  let q := if q_ready q0 then q0 else eq_init size in
  let gs := u8 (subgroup + N.shiftl group 4) in
  if prio =? LVL_FATAL then Some (q, ERR_OK)
  else if (size <? q_count q + 2)%nat then Some (q, ERR_QUEUE_FULL)
  else
    let cnt1 := if (q_count q <? size)%nat then S (q_count q) else q_count q in
    match upd (q_slots q) (q_in q) (Entry code prio module_nr info gs) with
    | None => None
    | Some s1 =>
      let in1 := ((q_in q + 1) mod size)%nat in
      if (size =? q_count q + 2)%nat then
        let cnt2 := if (cnt1 <? size)%nat then S cnt1 else cnt1 in
        match upd s1 in1 (full_entry module_nr) with
        | None => None
        | Some s2 => Some (EQueue true s2 (in1 + 1)%nat (q_out q) cnt2, ERR_QUEUE_FULL)
        end
      else Some (EQueue true s1 in1 (q_out q) cnt1, ERR_OK)
    end.

(** io_can_error.c:376-410 can_error_sys_error_get_full (queue build).
    The entry is what the output parameters receive; [None] result = read outside the array. *)
Definition eq_get_full (size : nat) (q : equeue) : option (equeue * (N * option entry)) :=
  if negb (q_ready q) then Some (q, (ERR_NOT_INITIALIZED, None))
  else if (q_count q =? 0)%nat then Some (q, (ERR_NO_ENTRY, None))
  else match nth_error (q_slots q) (q_out q) with
       | None => None
       | Some e => Some (EQueue true (q_slots q) (q_in q) ((q_out q + 1) mod size)%nat (q_count q - 1)%nat,
                         (ERR_OK, Some e))
       end.

(** io_can_error.c:431-467 can_error_sys_error_peek *)
Definition eq_peek (size : nat) (q : equeue) (idx : nat) : option (N * option N) :=
  if negb (q_ready q) then Some (ERR_NOT_INITIALIZED, None)
  else if (size <=? idx)%nat then Some (ERR_INDEX_TOO_BIG, None)
  else if (q_count q <=? idx)%nat then Some (ERR_NO_ENTRY, None)
  else
    let start := if (q_count q <? size)%nat then O else q_in q in
    match nth_error (q_slots q) ((start + idx + size) mod size)%nat with
    | None => None
    | Some e => Some (ERR_OK, Some (e_code e))
    end.

(** io_can_error.c:475-491 can_error_sys_error_count (queue build) *)
Definition eq_count (q : equeue) : nat := if q_ready q then q_count q else O.

(** io_can_error.c:109-114, the build without a queue: one entry and a 0/1 count.
    [None] entry: the static variables still have their initial value. *)
Record eslot := ESlot { s_entry : entry; s_count : nat }.
Definition es_reset : eslot := ESlot blank_entry 0.

(** io_can_error.c:323-334 *)
Definition es_send_full (s : eslot) (code info prio group subgroup module_nr : N) : eslot * N :=
  if prio =? LVL_FATAL then (s, ERR_OK)
  else (ESlot (Entry code prio module_nr info (u8 (subgroup + N.shiftl group 4))) 1, ERR_OK).

(** io_can_error.c:411-418 *)
Definition es_get_full (s : eslot) : eslot * (N * option entry) :=
  (ESlot (s_entry s) 0, (ERR_OK, Some (s_entry s))).

(** The store of the node: one of the two builds. *)
Inductive errstore := EsQueue (size : nat) (q : equeue) | EsSlot (s : eslot).

Definition es_send (st : errstore) (code info prio group subgroup module_nr : N) : option (errstore * N) :=
  match st with
  | EsQueue size q =>
      match eq_send_full size q code info prio group subgroup module_nr with
      | Some (q', e) => Some (EsQueue size q', e)
      | None => None
      end
  | EsSlot s => let '(s', e) := es_send_full s code info prio group subgroup module_nr in Some (EsSlot s', e)
  end.

Definition es_get (st : errstore) : option (errstore * (N * option entry)) :=
  match st with
  | EsQueue size q =>
      match eq_get_full size q with
      | Some (q', r) => Some (EsQueue size q', r)
      | None => None
      end
  | EsSlot s => let '(s', r) := es_get_full s in Some (EsSlot s', r)
  end.

Definition es_count (st : errstore) : nat :=
  match st with EsQueue _ q => eq_count q | EsSlot s => s_count s end.

(** io_can_error.c:166-178 error_syserr_send_with_info_byte, 139-149 error_syserr_send (info 0).
    errnum is a 16-bit code. *)
Definition syserr_send_info (st : errstore) (errnum prio module_nr info : N) : option (errstore * N) :=
  let code := N.lor (msg_sg_expand errnum) MSG_GROUP_CAN in
  es_send st code info prio (msg_extract_group code) (msg_extract_subgroup code) module_nr.
Definition syserr_send (st : errstore) (errnum prio module_nr : N) : option (errstore * N) :=
  syserr_send_info st errnum prio module_nr 0.

(** io_can_error.c:351-361 can_error_sys_error_get: the 16-bit code handed back *)
Definition err_num_of_code (code : N) : N :=
  u16 (N.lor (N.shiftl (msg_extract_subgroup code) 12) (msg_extract_code code)).
Definition es_get_num (st : errstore) : option (errstore * (N * option (N * N * N))) :=
  match es_get st with
  | Some (st', (e, Some en)) => Some (st', (e, Some (err_num_of_code (e_code en), e_prio en, e_module en)))
  | Some (st', (e, None)) => Some (st', (e, None))
  | None => None
  end.

(** Operations on the queue as its users issue them. *)
Inductive eop :=
| ESend (code info prio group subgroup module_nr : N)
| EGet
| ECount.

Inductive eout :=
| OSend (err : N)
| OGet (err : N) (e : option entry)
| OCount (n : nat).

Definition eq_step (size : nat) (q : equeue) (o : eop) : option (equeue * eout) :=
  match o with
  | ESend c i p g s m =>
      match eq_send_full size q c i p g s m with Some (q', e) => Some (q', OSend e) | None => None end
  | EGet => match eq_get_full size q with Some (q', (e, r)) => Some (q', OGet e r) | None => None end
  | ECount => Some (q, OCount (eq_count q))
  end.

(** run; [None] as soon as one operation leaves the array *)
Fixpoint eq_run (size : nat) (q : equeue) (ops : list eop) : option (equeue * list eout) :=
  match ops with
  | [] => Some (q, [])
  | o :: rest =>
      match eq_step size q o with
      | None => None
      | Some (q', out) =>
          match eq_run size q' rest with
          | None => None
          | Some (q'', outs) => Some (q'', out :: outs)
          end
      end
  end.

(** the build without a queue as a sequence of calls (io_can_error.c:323-334, 411-418, 484-490) *)
Definition sl_step (s : eslot) (o : eop) : eslot * eout :=
  match o with
  | ESend c i p g sg m => let '(s', e) := es_send_full s c i p g sg m in (s', OSend e)
  | EGet => let '(s', (e, r)) := es_get_full s in (s', OGet e r)
  | ECount => (s, OCount (s_count s))
  end.
Fixpoint sl_run (s : eslot) (ops : list eop) : eslot * list eout :=
  match ops with
  | [] => (s, [])
  | o :: rest => let '(s1, out) := sl_step s o in let '(s2, outs) := sl_run s1 rest in (s2, out :: outs)
  end.
