(** Specification of the data formats. *)
From Verif Require Import Words.

(** [n] bytes of the number [v], least or most significant byte first *)
Fixpoint le_enc (n : nat) (v : N) : list byte := match n with O => [] | S k => v mod 256 :: le_enc k (v / 256) end.
Definition be_enc (n : nat) (v : N) : list byte := rev (le_enc n v).
(** as a platform keeps it in memory *)
Definition host (le : bool) (n : nat) (v : N) : list byte := if le then le_enc n v else be_enc n v.
Definition host_all (le : bool) (n : nat) (vs : list N) : list byte := flat_map (host le n) vs.
Definition be_all (n : nat) (vs : list N) : list byte := flat_map (be_enc n) vs.
(** the number that bytes, most significant first, denote *)
Definition be_num (l : list byte) : N := fold_left (fun a b => a * 256 + b) l 0.
Definition fits (n : nat) (v : N) : Prop := v < 256 ^ N.of_nat n.

(** sixteen 12-bit channels in three frames: the high eight bits of channels 0-7, those of channels 8-15, and the low four
    bits, two channels in a byte *)
Definition high8 (c : N) : byte := c / 16.
Fixpoint nibbles (cs : list N) : list byte := match cs with a :: b :: r => (a mod 16) * 16 + b mod 16 :: nibbles r | _ => [] end.
(** the frame of message object [k] for the channels [cs] *)
Definition frame12 (cs : list N) (k : nat) : list byte :=
  match k with O => map high8 (firstn 8 cs) | 1%nat => map high8 (skipn 8 cs) | _ => nibbles cs end.
