(** Vocabulary for C87: the buffer of eight bytes a received frame is copied to is not cleared before, so it holds the received bytes and
    behind them whatever was in that memory. *)
From Verif Require Import Words ErrModel NodeModel NodeServModel.

(** two contents of the buffer after a frame with [dlc] data bytes: the received bytes agree, the rest is arbitrary *)
Definition same_frame (dlc : N) (a b : list byte) : Prop :=
  length a = 8%nat /\ length b = 8%nat /\ firstn (N.to_nat dlc) a = firstn (N.to_nat dlc) b.
(** a receive conversion looks at the received bytes only *)
Definition reads_received (f : rxconv) : Prop := forall a b app dlc, same_frame dlc a b -> f a app dlc = f b app dlc.
(** every receive conversion in the table does *)
Definition conversions_ok (s : node) : Prop := forall pos obj f, r_conv_s (rxat (modat s pos) obj) = Some f -> reads_received f.
(** messages for a service that agree in everything but the bytes that were not received *)
Definition same_message (dlc : N) (x y : handed) : Prop :=
  match x, y with
  | HCtl n a, HCtl m b => n = m /\ same_frame dlc a b
  | HTunnel l a, HTunnel m b => l = m /\ same_frame dlc a b
  | _, _ => False
  end.
