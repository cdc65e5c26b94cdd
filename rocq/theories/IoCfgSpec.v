(** Specification of C114: what the IO configuration of the modules of type [t] is after a history of calls.  The first
    component counts the modules of the node, the second is the configuration: the one given with the module, changed by the
    later calls for this type. *)
From Verif Require Import Words NodeModel IoCfgModel.

Definition conf_step (max : nat) (t : list byte) (x : nat * option ioc) (o : iop) : nat * option ioc :=
  let '(n, c) := x in
  match o with
  | IInit => (O, None)
  | IAdd t' c' =>
      if (n <? max)%nat then
        (S n, match c with
              | Some _ => c
              | None => if type_eqb t' t then Some c' else None
              end)
      else (n, c)
  | ISet t' crc date => (n, if type_eqb t' t then option_map (fun y => Ioc crc date (io_fn y)) c else c)
  end.
Definition conf (max : nat) (t : list byte) (h : list iop) : option ioc := snd (fold_left (conf_step max t) h (O, None)).

(** modules have types that are not empty *)
Definition named (o : iop) : Prop := match o with IAdd t _ => t <> [] | _ => True end.
