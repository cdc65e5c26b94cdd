(** Histories with changes of module numbers and types after which the node still sends everything (C06, C07). *)
From Verif Require Import Words ErrModel NodeModel NodeSpec.

(** no module behind position [p] has transmit objects *)
Definition last_sender (s : node) (p : nat) : Prop :=
  forall q, (p < q)%nat -> (q < length (tab_of s))%nat -> m_ntx (modat s q) = 0%nat.
(** a module whose number may be changed: configured, awake, and the last one that has transmit objects *)
Definition may_renumber (s : node) (p : nat) : Prop := in_use (modat s p) = true /\ awake s p = true /\ last_sender s p.
(** all modules are awake and none of them was added only in part *)
Definition all_up (s : node) : Prop :=
  (forall p, (p < length (tab_of s))%nat -> awake s p = true) /\
  (forall p, (p < length (tab_of s))%nat -> in_use (modat s p) = true -> (p < nmod s)%nat).
(** operations of a calm history: those of plain histories, changes of the number of the last awake module to a
    number that is not in use, changes of the type of a configured module while all modules are awake *)
Definition calm (E : env) (s : node) (o : op) : Prop :=
  match o with
  | OpFrame mo id _ data _ =>
      sys_mo E mo = true ->
      (byte_at data 0 = 32 -> fresh_nr s (byte_at data 2) /\ forall p, entry_of_nr s (id_nr id) = Some p -> may_renumber s p) /\
      (byte_at data 0 = 49 -> all_up s /\ forall p, entry_of_nr s (id_nr id) = Some p -> in_use (modat s p) = true) /\
      (byte_at data 0 = 33 \/ byte_at data 0 = 34 -> byte_at data 1 <> 0)
  | OpSetNr type new actual => fresh_nr s new /\ forall p, named s type actual = Some p -> may_renumber s p
  | OpSilent type _ st => hd 0 type <> 0 /\ (st = SILENT \/ st = AWAKE)
  | OpTakePart _ _ => False
  | _ => True
  end.
(** states after a calm history *)
Definition calmly (E : env) (ops : list op) (s : node) : Prop := exists s0, booted E s0 /\ run_with E (calm E) ops s0 s.
