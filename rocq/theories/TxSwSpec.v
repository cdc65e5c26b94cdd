(** Specification of the switches of single objects. *)
From Verif Require Import Words ErrModel NodeModel NodeSpec TxSwModel.

(** the transmit objects of all modules, in table order *)
Definition all_objs (s : node) : list (nat * nat) :=
  flat_map (fun p => map (fun o => (p, o)) (seq 0 (m_ntx (modat s p)))) (seq 0 (length (tab_of s))).
(** whether object [o] of module [p] is sent: the last call for it decides; without a call, whether its module is awake *)
Fixpoint last_call (p o : nat) (start : bool) (l : list sw) : bool :=
  match l with
  | [] => start
  | (p', o', b) :: t => last_call p o (if (p' =? p)%nat && (o' =? o)%nat then b else start) t
  end.
Definition wanted (s : node) (l : list sw) : list (nat * nat) := filter (fun x => last_call (fst x) (snd x) (awake s (fst x)) l) (all_objs s).
(** operations that neither add, rename, silence nor wake modules: frames for data and process requests, other system
    messages, the calls of the application *)
Definition quiet (E : env) (o : op) : Prop :=
  match o with
  | OpFrame mo _ _ data _ => sys_mo E mo = true -> byte_at data 0 <> 32 /\ byte_at data 0 <> 33 /\ byte_at data 0 <> 34 /\ byte_at data 0 <> 49
  | OpAdd _ _ _ _ | OpSilent _ _ _ | OpSetNr _ _ _ | OpTakePart _ _ => False
  | _ => True
  end.
