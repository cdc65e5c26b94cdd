(** Specification of the persistent download information, independent of the model's code: what a reader of the
    information sees, when its checksum matches, what the defaults are. *)
From Verif Require Import Words InfoModel.

(** the checksum of the information, and whether it matches.  The first 36 bytes are the information, the last two the
    checksum, low byte first. *)
Definition content (m : mem) : list byte := firstn 36 m.
Definition checksum (C : crcf) (l : list byte) : N := crc16_update C (crc16_init C mod 65536) l mod 65536.
Definition stored_checksum (m : mem) : N := nth 36 m 0 + 256 * nth 37 m 0.
Definition matches (C : crcf) (m : mem) : Prop := checksum C (content m) = stored_checksum m.

(** a memory image of the right size *)
Definition image (m : mem) : Prop := length m = 38%nat /\ Forall (fun b => b < 256) m.

(** the default values: mode running, module number 125, empty name and type, all numbers zero *)
Definition defaults (m : mem) : Prop :=
  get_mode m = 4 /\ get_nr m = 125 /\
  firstn 8 (skipn 6 m) = repeat 0 8 /\            (* name *)
  firstn 2 (skipn 16 m) = [0; 0] /\               (* checksum of the component *)
  firstn 4 (skipn 20 m) = [0; 0; 0; 0] /\         (* download identification *)
  nth 24 m 1 = 0 /\                               (* index of the request *)
  firstn 5 (skipn 25 m) = [0; 0; 0; 0; 0] /\      (* module type *)
  get_user1 m = 0 /\ get_user2 m = 0.

(** the operations an application or the stack may issue, with values of the C types *)
Definition iop_ok (o : iop) : Prop :=
  match o with
  | IInit | IClean => True
  | IMode v => v < 6
  | IComp c => length c = 28%nat /\ Forall (fun b => b < 256) c
  | IBaud b => b < 65536
  | IUser1 b | IUser2 b => b < 256
  end.
