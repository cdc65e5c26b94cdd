(** Values that cross the bus (C102): an application's transmit object on one node, a frame, an application's receive object on another node,
    with the conversion functions that come with the library. *)
From Verif Require Import Words ErrModel NodeModel NodeSpec ConvModel ConvSpec.

(** kinds of objects: one number of [n] bytes, bytes in pairs, 16-bit numbers, 32-bit numbers *)
Inductive kind := Bits (n : nat) | Pairs | Words16 | Words32.
(** values that fit into one frame *)
Definition good (k : kind) (vs : list N) : Prop :=
  match k with
  | Bits n => (n <= 8)%nat /\ exists v, vs = [v] /\ fits n v
  | Pairs => (length vs <= 8)%nat /\ Nat.even (length vs) = true /\ Forall is_byte vs
  | Words16 => (length vs <= 4)%nat /\ Forall (fits 2) vs
  | Words32 => (length vs <= 2)%nat /\ Forall (fits 4) vs
  end.
Definition width (k : kind) (vs : list N) : nat :=
  match k with Bits n => n | Pairs => length vs | Words16 => 2 * length vs | Words32 => 4 * length vs end.
(** the values as an application has them in memory on a platform with the given byte order *)
Definition in_memory (le : bool) (k : kind) (vs : list N) : list byte :=
  match k with Bits n => flat_map (host le n) vs | Pairs => vs | Words16 => host_all le 2 vs | Words32 => host_all le 4 vs end.
(** the conversion functions of the library as the stack calls them *)
Definition library_tx (le : bool) (k : kind) : txconv := fun can app dlc =>
  match (match k with Bits _ => tx_bit | Pairs => tx_nibble | Words16 => tx_uint16 | Words32 => tx_uint32 end) le can app 0%nat dlc with Some c => (c, 0) | None => (can, 1) end.
Definition library_rx (le : bool) (k : kind) : rxconv := fun can app dlc =>
  match (match k with Bits _ => rx_bit | Pairs => rx_nibble | Words16 => rx_uint16 | Words32 => rx_uint32 end) le can app 0%nat dlc with Some a => (a, 0) | None => (app, 1) end.
(** every object that is sent has memory and a conversion function, and the conversions leave the length of the frame buffer *)
Definition convertible (s : node) : Prop := forall p o can, In (p, o) (enabled s) -> length can = 8%nat ->
  exists can' e, convert s p o can = Some (can', e) /\ length can' = 8%nat.
