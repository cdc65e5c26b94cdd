(** Specification of the bit rate. *)
From Verif Require Import Words ErrModel NodeModel NodeSpec.

(** the rate the CAN controller runs at: the one programmed last, None before the first *)
Definition bus_rate (s : node) : option N := h_rate (n_hw s).
(** the application sets the rate only before the start or while the node is stopped *)
Definition rate_at_rest (s : node) (o : op) : Prop :=
  match o with OpBaud _ => h_mode (n_hw s) = MODE_INIT \/ h_mode (n_hw s) = MODE_STOPPED | _ => True end.
