(** Vocabulary of C95: how many frames one operation may cause. *)
From Verif Require Import Words ErrModel NodeModel NodeSpec.

(** how many modules a system message with this identifier addresses: number 1 is for all, any other for one *)
Definition addressees (s : node) (id : N) : nat := if id_nr id =? 1 then nmod s else 1%nat.
(** the most frames the node may send in answer to an operation in state [s]: a process request is answered with at most one frame for
    each of the 32 bits of the send register and one error; a status request (command 1) with one frame for each addressed module
    and the errors in the memory; a version request (command 5) with two frames for each addressed module; nothing else is answered *)
Definition allowance (E : env) (s : node) (o : op) : nat :=
  match o with
  | OpFrame mo id _ data _ =>
      if (mo =? MO_PROCESS)%nat then 33%nat
      else if sys_mo E mo then
        if byte_at data 0 =? 1 then (addressees s id + es_count (n_err s))%nat
        else if byte_at data 0 =? 5 then (2 * addressees s id)%nat else O
      else O
  | _ => O
  end.
(** the error memory holds at most [c] errors *)
Definition fits (c : nat) (st : errstore) : Prop :=
  match st with
  | EsQueue size q => (size <= c)%nat /\ (q_count q <= size)%nat
  | EsSlot s => (1 <= c)%nat /\ (s_count s <= 1)%nat
  end.
(** the same, without looking at the state *)
Definition worst (E : env) (c : nat) (o : op) : nat :=
  match o with
  | OpFrame mo _ _ _ _ => if (mo =? MO_PROCESS)%nat then 33%nat else if sys_mo E mo then (2 * MAXM E + c)%nat else O
  | _ => O
  end.
