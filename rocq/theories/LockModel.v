(** The lock of the error handler (switch LI_CAN_SLV_RECONNECT_ENA_ERR_HANDLER_LOCK):
    source/arch/canpie_adapter/io_can_main_hw_handler.c:182-272 can_main_hw_handler_error, called by li_can_slv_process
    (source/core/io_can.c:307) and by the error interrupt of the driver (io_can_main_hw_handler.c:172-179,
    io_can_main_hw.c:106), which may come at any moment interrupts are enabled.
    Simplification: the body (lines 199-263) is only "begun" and "finished"; its effects are modelled in ReconModel. *)
From Verif Require Import Words.

(** the point a call has reached *)
Inductive pc :=
| AtTest   (* line 193 *)
| AtDis1   (* line 195 *)
| AtSet    (* line 196 *)
| AtEn1    (* line 197 *)
| AtBegin  (* line 199, not yet begun *)
| AtBody   (* lines 199-263 *)
| AtDis2   (* line 266 *)
| AtClear  (* line 267 *)
| AtEn2.   (* line 268 *)

(** what can be observed of the call with the given number *)
Inductive lev := LCall (i : nat) | LBegin (i : nat) | LEnd (i : nat) | LSkip (i : nat) | LReturn (i : nat).

(** [l_calls]: the calls under way, the last one first; [l_lock]: can_main_hw_handler_error_lock; [l_irq]: interrupts are
    enabled; [l_next]: number of the next call; [l_log]: what has happened *)
Record lk := Lk { l_calls : list (nat * pc); l_lock : bool; l_irq : bool; l_next : nat; l_log : list lev }.

(** one step of the call [i] at [p]: where it goes ([None]: it returns), the lock, the interrupts, what is seen.
    [more]: the body goes on *)
Definition lexec (more : bool) (i : nat) (p : pc) (lock irq : bool) : option pc * bool * bool * list lev :=
  match p with
  | AtTest => if lock then (None, lock, irq, [LSkip i]) else (Some AtDis1, lock, irq, [])
  | AtDis1 => (Some AtSet, lock, false, [])
  | AtSet => (Some AtEn1, true, irq, [])
  | AtEn1 => (Some AtBegin, lock, true, [])
  | AtBegin => (Some AtBody, lock, irq, [LBegin i])
  | AtBody => if more then (Some AtBody, lock, irq, []) else (Some AtDis2, lock, irq, [LEnd i])
  | AtDis2 => (Some AtClear, lock, false, [])
  | AtClear => (Some AtEn2, false, irq, [])
  | AtEn2 => (None, lock, true, [LReturn i])
  end.

(** [LNew]: a new call, by the main program or by an interrupt (then only with interrupts enabled);
    [LGo]: the call begun last goes on - an interrupt runs to its end before the interrupted call goes on *)
Inductive lact := LNew | LGo (more : bool).
Definition lstep (s : lk) (a : lact) : lk :=
  match a, l_calls s with
  | LNew, [] => Lk [(l_next s, AtTest)] (l_lock s) (l_irq s) (S (l_next s)) (l_log s ++ [LCall (l_next s)])
  | LNew, c =>
      if l_irq s then Lk ((l_next s, AtTest) :: c) (l_lock s) (l_irq s) (S (l_next s)) (l_log s ++ [LCall (l_next s)])
      else s
  | LGo more, (i, p) :: c =>
      let '(p', lock, irq, ev) := lexec more i p (l_lock s) (l_irq s) in
      Lk (match p' with Some q => (i, q) :: c | None => c end) lock irq (l_next s) (l_log s ++ ev)
  | LGo _, [] => s
  end.
(** at power-on, with the interrupts as given *)
Definition lk0 (irq : bool) : lk := Lk [] false irq 0 [].
Definition lrun (irq : bool) (acts : list lact) : lk := fold_left lstep acts (lk0 irq).

(** the same code called from two threads of a scheduler that may switch between them whenever interrupts are enabled:
    [TGo k]: the [k]th call goes on *)
Inductive tact := TNew | TGo (k : nat) (more : bool).
Definition holds_irq (p : pc) : bool := match p with AtSet | AtEn1 | AtClear | AtEn2 => true | _ => false end.
Definition tstep (s : lk) (a : tact) : lk :=
  match a with
  | TNew => if l_irq s then Lk ((l_next s, AtTest) :: l_calls s) (l_lock s) (l_irq s) (S (l_next s)) (l_log s ++ [LCall (l_next s)])
            else s
  | TGo k more =>
      match nth_error (l_calls s) k with
      | None => s
      | Some (i, p) =>
          if l_irq s || holds_irq p then
            let '(p', lock, irq, ev) := lexec more i p (l_lock s) (l_irq s) in
            Lk (match p' with Some q => set_nth (l_calls s) k (i, q)
                            | None => firstn k (l_calls s) ++ skipn (S k) (l_calls s) end) lock irq (l_next s) (l_log s ++ ev)
          else s
      end
  end.
Definition trun (acts : list tact) : lk := fold_left tstep acts (lk0 true).
