(** Specification of download messages outside of the download they belong to. *)
From Verif Require Import Words ErrModel NodeModel LookModel LookSpec XBufModel XBufSpec AsyncSpec XloadModel XloadSpec.

(** messages that may come between two block ends, and the data they carry: data messages to any module that listens;
    end acknowledges and terminations of a master; unrelated ones *)
Inductive stray : xlop -> list (list byte) -> Prop :=
| StData tab silent nr m p : listening tab silent nr -> length m = 7%nat -> stray (LRx tab silent nr (0x15 :: m) p) [m]
| StStop tab silent nr d p : listening tab silent nr -> In (nth 0 d 0) [0x1B; 0x1C] -> stray (LRx tab silent nr d p) []
| StOther o : unrelated o -> stray o [].
Inductive strays : list xlop -> list (list byte) -> Prop :=
| SsNil : strays [] []
| SsCons o m ops ms : stray o m -> strays ops ms -> strays (o :: ops) (m ++ ms).
(** the message with which a master terminates a download *)
Definition stop_op (tab : list modl) (silent : list N) (nr : N) : xlop := LRx tab silent nr [0x1C; 0; 0; 0; 0; 0; 0; 0] nothing.
(** a component whose name has been cleared *)
Definition unnamed (c : comp) : comp := Comp (c_nr c) (repeat 0 9) (c_crc c) (c_id c) (c_index c) (c_type c).
(** registrations only *)
Definition only_regs (pre : list xlop) : Prop := forall o, In o pre -> exists k h, o = LReg k h.
