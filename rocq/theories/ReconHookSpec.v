(** Specification: the callbacks at the beginning and at the end of a search for the baud rate come in pairs. *)
From Verif Require Import Words ReconModel ReconSpec.

(** what the application knows from its callbacks *)
Inductive srch := Closed | OpenStartup | OpenOnline.
(** a start only when no search is open, a stop only for the search that is open, of the same kind *)
Fixpoint brackets (q : srch) (l : list robs) : option srch :=
  match l with
  | [] => Some q
  | OStartupStart :: t => match q with Closed => brackets OpenStartup t | _ => None end
  | OStartupStop _ :: t => match q with OpenStartup => brackets Closed t | _ => None end
  | OOnlineStart :: t => match q with Closed => brackets OpenOnline t | _ => None end
  | OOnlineStop _ :: t => match q with OpenOnline => brackets Closed t | _ => None end
  | _ :: t => brackets q t
  end.

(** the driver accepts the operational mode *)
Definition ev_operational (e : rev) : Prop :=
  match e with EStart h _ | EPoll _ h _ _ _ _ | ERx h _ => ok_mode h MOperational = true | _ => True end.
(** lcsa_start is not called while a search is running *)
Definition no_restart (g : rcfg) (es : list rev) : Prop :=
  forall a h late b, es = a ++ EStart h late :: b -> ~ searching (rend g rec_zero a).
(** the end of a search was told with rate [r] *)
Definition told (r : N) (o : list robs) : Prop := In (OStartupStop r) o \/ In (OOnlineStop r) o.
