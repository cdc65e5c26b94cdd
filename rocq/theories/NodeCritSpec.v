(** Which modules take part in the process image, told from the history alone: the application takes a module
    out by declaring it critical and puts it back by declaring it active; putting a module to sleep and waking
    it up - by the application or by a message of the master - does the same. *)
From Verif Require Import Words ErrModel NodeModel NodeSpec.

(** the module the application means: the first entry with that type *)
Definition of_type (s : node) (type : list byte) : option nat :=
  find (fun p => strn_eq 5 (m_type (modat s p)) type) (seq 0 (length (tab_of s))).
(** what an operation switches: an entry of the table, in or out *)
Definition switches (E : env) (s : node) (o : op) : option (nat * bool) :=
  match o with
  | OpTakePart type on => option_map (fun p => (p, on)) (of_type s type)
  | OpSilent type nr st => option_map (fun p => (p, st =? AWAKE)) (named s type nr)
  | OpFrame mo id dlc data _ =>
      if sys_mo E mo && (dlc =? 8) && negb (id_nr id =? 1) then
        match silent_cmd (byte_at data 0), entry_of_nr s (id_nr id) with
        | Some st, Some p => if has_serial E data && has_type s p data then Some (p, st =? AWAKE) else None
        | _, _ => None
        end
      else None
  | _ => None
  end.
Definition part_after (E : env) (s : node) (o : op) (part : nat -> bool) : nat -> bool :=
  match switches E s o with
  | Some (p, b) => fun q => if (q =? p)%nat then b else part q
  | None => part
  end.
(** [history E ops s part]: after [ops] the node is in state [s] and the modules with [part p = true] take part *)
Inductive history (E : env) : list op -> node -> (nat -> bool) -> Prop :=
| H_start s : booted E s -> history E [] s (fun _ => true)
| H_step ops s part o s' : history E ops s part -> step E o s = Ret (tt, s') -> history E (ops ++ [o]) s' (part_after E s o part).
(** operations of a history: no change of a number or a type, states silent and awake only, and an empty type
    names no module *)
Definition fair (E : env) (o : op) : Prop :=
  match o with
  | OpTakePart type _ => hd 0 type <> 0
  | _ => plain E o
  end.
(** the objects sent in a cycle: the transmit objects of the modules that take part, in table order *)
Definition objects (part : nat -> bool) (s : node) : list (nat * nat) :=
  flat_map (fun p => if part p then map (fun o => (p, o)) (seq 0 (m_ntx (modat s p))) else []) (seq 0 (length (tab_of s))).
(** the effect of declaring a module critical or active: the module stops or starts, everything else stays;
    in particular the silent flags stay *)
Record turned (on : bool) (p : nat) (s s' : node) : Prop := {
  td_mod : modat s' p = if on then awakened (modat s p) else silenced (modat s p);
  td_others : forall q, q <> p -> modat s' q = modat s q;
  td_awake : forall q, awake s' q = awake s q;
  td_cyclic : forall q o, (o < 4)%nat -> cyclic s' q o = if (q =? p)%nat && (o <? m_ntx (modat s p))%nat then on else cyclic s q o;
  td_mem : n_mem s' = if on then n_mem s else zeroed (firstn (m_nrx (modat s p)) (m_rx (modat s p))) (n_mem s);
  td_rest : n_sync s' = n_sync s /\ n_sys s' = n_sys s /\ n_hw s' = n_hw s /\ n_err s' = n_err s /\ n_log s' = n_log s /\ nmod s' = nmod s /\
            length (tab_of s') = length (tab_of s) /\ x_id (n_tx s') = x_id (n_tx s) /\ x_dlc (n_tx s') = x_dlc (n_tx s)
}.
