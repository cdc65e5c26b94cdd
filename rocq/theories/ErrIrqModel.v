(** Reports of errors by the main program with interrupts between their memory accesses: source/error/io_can_error.c:181-334.
    The interrupt routine (receive callbacks) reports errors and reads them with complete calls of the functions of ErrModel; the main
    program cannot run in between.  One access of the model is one statement of the function, except that the increments
    of the count and of the index are a load and a store (both variables are volatile, line 106).
    Not modelled: an interrupt between the load of the index and the store of a field in one statement (lines 255-259). *)
From Verif Require Import Words ErrModel.

(** the arguments of can_error_sys_error_send_full (line 181) *)
Record ecall := ECall { ec_code : N; ec_info : N; ec_prio : N; ec_group : N; ec_sub : N; ec_nr : N }.

(** the accesses in program order *)
Inductive macc :=
| ACheck                                        (* 211: read the state *)
| AInitSlots | AInitCount | AInitOut | AInitIn | AInitReady   (* 502-520 can_error_init *)
| AFree                                         (* 240: read the count *)
| ALimit | ALoad | AStore                       (* 251-253: count below the size?  ++count *)
| ACode | ANr | APrio | AInfo | AGroup          (* 255-259 *)
| AInLoad | AInStore                            (* 260 *)
| ALimit2 | ALoad2 | AStore2                    (* 270-272 *)
| ACode2 | ANr2 | APrio2 | AInfo2 | AGroup2     (* 275-279 *)
| AInLoad2 | AInStore2.                         (* 280 *)
Definition send_prog : list macc :=
  [ACheck; AInitSlots; AInitCount; AInitOut; AInitIn; AInitReady; AFree; ALimit; ALoad; AStore; ACode; ANr; APrio; AInfo; AGroup; AInLoad; AInStore;
   ALimit2; ALoad2; AStore2; ACode2; ANr2; APrio2; AInfo2; AGroup2; AInLoad2; AInStore2].

(** the local values: is the queue to be initialised, room (Lt full, Eq last entry, Gt room), is the count below the
    size, a loaded value *)
Record elocal := ELocal { l_init : bool; l_room : comparison; l_lim : bool; l_tmp : nat }.
Definition elocal0 : elocal := ELocal false Lt false 0.

Definition set_slots (q : equeue) x := EQueue (q_ready q) x (q_in q) (q_out q) (q_count q).
Definition set_in (q : equeue) x := EQueue (q_ready q) (q_slots q) x (q_out q) (q_count q).
Definition set_out (q : equeue) x := EQueue (q_ready q) (q_slots q) (q_in q) x (q_count q).
Definition set_count (q : equeue) x := EQueue (q_ready q) (q_slots q) (q_in q) (q_out q) x.
Definition set_ready (q : equeue) x := EQueue x (q_slots q) (q_in q) (q_out q) (q_count q).
(** a store to a field of the entry at in_next_idx; None: outside the array *)
Definition field (f : entry -> entry) (q : equeue) : option equeue :=
  match nth_error (q_slots q) (q_in q) with
  | Some e => match upd (q_slots q) (q_in q) (f e) with Some l => Some (set_slots q l) | None => None end
  | None => None
  end.
Definition f_code x (e : entry) := Entry x (e_prio e) (e_module e) (e_info e) (e_group e).
Definition f_prio x (e : entry) := Entry (e_code e) x (e_module e) (e_info e) (e_group e).
Definition f_nr x (e : entry) := Entry (e_code e) (e_prio e) x (e_info e) (e_group e).
Definition f_info x (e : entry) := Entry (e_code e) (e_prio e) (e_module e) x (e_group e).
Definition f_group x (e : entry) := Entry (e_code e) (e_prio e) (e_module e) (e_info e) x.

Section Acc.
Variables (size : nat) (c : ecall).
Definition fatal : bool := ec_prio c =? LVL_FATAL.
(** lines 220 and 242: nothing is stored for a fatal error or without room; line 263: the second entry *)
Definition stores (l : elocal) : bool := negb fatal && match l_room l with Lt => false | _ => true end.
Definition last (l : elocal) : bool := negb fatal && match l_room l with Eq => true | _ => false end.
Definition mem_if (b : bool) (l : elocal) (q : equeue) (q' : option equeue) : option (elocal * equeue) :=
  if b then match q' with Some x => Some (l, x) | None => None end else Some (l, q).
Definition loc_if (b : bool) (l : elocal) (q : equeue) (l' : elocal) : option (elocal * equeue) := Some (if b then l' else l, q).
Definition tmp (l : elocal) x := ELocal (l_init l) (l_room l) (l_lim l) x.
Definition lim (l : elocal) x := ELocal (l_init l) (l_room l) x (l_tmp l).

Definition access (a : macc) (l : elocal) (q : equeue) : option (elocal * equeue) :=
  match a with
  | ACheck => Some (ELocal (negb (q_ready q)) (l_room l) (l_lim l) (l_tmp l), q)
  | AInitSlots => mem_if (l_init l) l q (Some (set_slots q (repeat blank_entry size)))
  | AInitCount => mem_if (l_init l) l q (Some (set_count q 0))
  | AInitOut => mem_if (l_init l) l q (Some (set_out q 0))
  | AInitIn => mem_if (l_init l) l q (Some (set_in q 0))
  | AInitReady => mem_if (l_init l) l q (Some (set_ready q true))
  | AFree => Some (ELocal (l_init l) (size ?= q_count q + 2)%nat (l_lim l) (l_tmp l), q)
  | ALimit => loc_if (stores l) l q (lim l (q_count q <? size)%nat)
  | ALoad => loc_if (stores l && l_lim l) l q (tmp l (q_count q))
  | AStore => mem_if (stores l && l_lim l) l q (Some (set_count q (S (l_tmp l))))
  | ACode => mem_if (stores l) l q (field (f_code (ec_code c)) q)
  | ANr => mem_if (stores l) l q (field (f_nr (ec_nr c)) q)
  | APrio => mem_if (stores l) l q (field (f_prio (ec_prio c)) q)
  | AInfo => mem_if (stores l) l q (field (f_info (ec_info c)) q)
  | AGroup => mem_if (stores l) l q (field (f_group (u8 (ec_sub c + N.shiftl (ec_group c) 4))) q)
  | AInLoad => loc_if (stores l) l q (tmp l (q_in q))
  | AInStore => mem_if (stores l) l q (Some (set_in q ((l_tmp l + 1) mod size)%nat))
  | ALimit2 => loc_if (last l) l q (lim l (q_count q <? size)%nat)
  | ALoad2 => loc_if (last l && l_lim l) l q (tmp l (q_count q))
  | AStore2 => mem_if (last l && l_lim l) l q (Some (set_count q (S (l_tmp l))))
  | ACode2 => mem_if (last l) l q (field (f_code full_code) q)
  | ANr2 => mem_if (last l) l q (field (f_nr (ec_nr c)) q)
  | APrio2 => mem_if (last l) l q (field (f_prio LVL_CRITICAL) q)
  | AInfo2 => mem_if (last l) l q (field (f_info 0) q)
  | AGroup2 => mem_if (last l) l q (field (f_group (msg_extract_group_subgroup full_code)) q)
  | AInLoad2 => loc_if (last l) l q (tmp l (q_in q))
  | AInStore2 => mem_if (last l) l q (Some (set_in q (l_tmp l + 1)%nat))
  end.
(** line 322: the result *)
Definition result (l : elocal) : N := if fatal then ERR_OK else match l_room l with Gt => ERR_OK | _ => ERR_QUEUE_FULL end.

(** the accesses [prog]; the calls [irq k] are executed by interrupts before access [k], the last ones after the last access.
    The outputs are those of the interrupts, and the result of the call when it returns. *)
Fixpoint exec (irq : nat -> list eop) (k : nat) (prog : list macc) (l : elocal) (q : equeue) : option (equeue * list eout) :=
  match prog with
  | [] => match eq_run size q (irq k) with Some (q1, o) => Some (q1, OSend (result l) :: o) | None => None end
  | a :: r =>
      match eq_run size q (irq k) with
      | None => None
      | Some (q1, o) =>
          match access a l q1 with
          | None => None
          | Some (l2, q2) => match exec irq (S k) r l2 q2 with Some (q3, o3) => Some (q3, o ++ o3) | None => None end
          end
      end
  end.
End Acc.
Definition call_irq (size : nat) (c : ecall) (irq : nat -> list eop) (q : equeue) : option (equeue * list eout) :=
  exec size c irq 0 send_prog elocal0 q.

(** histories: calls of the main program, each with its interrupts *)
Definition ihist := list (ecall * (nat -> list eop)).
Fixpoint irun (size : nat) (q : equeue) (h : ihist) : option (equeue * list eout) :=
  match h with
  | [] => Some (q, [])
  | (c, irq) :: r =>
      match call_irq size c irq q with
      | None => None
      | Some (q1, o1) => match irun size q1 r with Some (q2, o2) => Some (q2, o1 ++ o2) | None => None end
      end
  end.

(** io_can_error.c:327-332, the build without a queue: six stores *)
Inductive sacc := SCount | SNr | SCode | SPrio | SInfo | SGroup.
Definition slot_prog : list sacc := [SCount; SNr; SCode; SPrio; SInfo; SGroup].
Definition saccess (c : ecall) (a : sacc) (s : eslot) : eslot :=
  if ec_prio c =? LVL_FATAL then s else
  match a with
  | SCount => ESlot (s_entry s) 1
  | SNr => ESlot (f_nr (ec_nr c) (s_entry s)) (s_count s)
  | SCode => ESlot (f_code (ec_code c) (s_entry s)) (s_count s)
  | SPrio => ESlot (f_prio (ec_prio c) (s_entry s)) (s_count s)
  | SInfo => ESlot (f_info (ec_info c) (s_entry s)) (s_count s)
  | SGroup => ESlot (f_group (u8 (ec_sub c + N.shiftl (ec_group c) 4)) (s_entry s)) (s_count s)
  end.
(** a call of the interrupt routine; the routine reads only if the count is not zero (source/sync/io_can_sync_handler.c:198-200, source/sys/io_can_sys.c:280-282) *)
Definition sirq (s : eslot) (o : eop) : eslot * list entry :=
  match o with
  | ESend code info prio group sub nr => (fst (es_send_full s code info prio group sub nr), [])
  | EGet => if (s_count s =? 0)%nat then (s, []) else (fst (es_get_full s), [s_entry s])
  | ECount => (s, [])
  end.
Fixpoint sirqs (s : eslot) (os : list eop) : eslot * list entry :=
  match os with [] => (s, []) | o :: r => let '(s1, g1) := sirq s o in let '(s2, g2) := sirqs s1 r in (s2, g1 ++ g2) end.
(** the state after the call and the entries read by the interrupts *)
Fixpoint sexec (c : ecall) (irq : nat -> list eop) (k : nat) (prog : list sacc) (s : eslot) : eslot * list entry :=
  let '(s1, g1) := sirqs s (irq k) in
  match prog with
  | [] => (s1, g1)
  | a :: r => let '(s2, g2) := sexec c irq (S k) r (saccess c a s1) in (s2, g1 ++ g2)
  end.
