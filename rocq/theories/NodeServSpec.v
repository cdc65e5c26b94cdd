(** Vocabulary for C84: histories in which every module number is between 1 and 128, so that the identifiers made
    from it have 11 bits. *)
From Verif Require Import Words ErrModel NodeModel NodeSpec.

(** the numbers an operation gives: by the application, told by the master (command 32, byte 2), of a new module *)
Definition small_number (E : env) (s : node) (o : op) : Prop :=
  match o with
  | OpSetNr _ new _ => 1 <= new <= 128
  | OpFrame mo _ _ data _ => sys_mo E mo = true -> byte_at data 0 = 32 -> 1 <= byte_at data 2 <= 128
  | OpAdd _ nr _ _ => forall i, next_pos s = Some i -> given_nr s i nr <= 128
  | _ => True
  end.
Inductive small_history (E : env) : list op -> node -> Prop :=
| sh_booted s : booted E s -> small_history E [] s
| sh_step ops s o s' : small_history E ops s -> small_number E s o -> step E o s = Ret (tt, s') -> small_history E (ops ++ [o]) s'.
