(** Vocabulary of C111: values in frames. *)
From Verif Require Import Words ErrModel NodeModel ConvModel ConvSpec ValueSpec.

(** the bytes of a frame that carries the values: numbers most significant byte first, the number of a [Bits] object least significant byte first *)
Definition on_wire (k : kind) (vs : list N) : list byte :=
  match k with Bits n => flat_map (fun v => rev (in_memory false k [v])) vs | Pairs => vs | _ => in_memory false k vs end.
