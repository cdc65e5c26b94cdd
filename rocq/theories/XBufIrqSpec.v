(** C94: what a buffer of [size] bytes does, seen from outside, and which schedules are free of the races. *)
From Verif Require Import Words ErrModel XBufModel XBufIrqModel.

(** the content before and after an observation; [None] = a buffer does not do this *)
Definition explain (size : nat) (l : list byte) (o : gobs) : option (list byte) :=
  match o with
  | GQuiet | GGot _ => Some l
  | GEmpty => match l with [] => Some [] | _ => None end
  | GTaken x => match l with y :: t => if x =? y then Some t else None | [] => None end
  | GAdded x => if (length l <? size)%nat then Some (l ++ [x]) else None
  | GRefused _ => if (length l =? size)%nat then Some l else None
  | GRemoved k => if (k <=? length l)%nat then Some (firstn (length l - k) l) else None
  | GNotRemoved k => if (length l <? k)%nat then Some l else None
  end.
Fixpoint explains (size : nat) (l : list byte) (os : list gobs) : option (list byte) :=
  match os with [] => Some l | o :: t => match explain size l o with None => None | Some l1 => explains size l1 t end end.
(** bytes given to the application; bytes taken *)
Fixpoint got (os : list gobs) : list byte := match os with [] => [] | GGot x :: t => x :: got t | _ :: t => got t end.
Fixpoint taken (os : list gobs) : list byte := match os with [] => [] | GTaken x :: t => x :: taken t | _ :: t => taken t end.
Fixpoint added (os : list gobs) : list byte := match os with [] => [] | GAdded x :: t => x :: added t | _ :: t => added t end.

(** schedules: no second call during a call; no interrupt between the read and the write of the number of bytes; no removal between
    the check for an empty buffer and that write *)
Definition clean_ev (t : option gpoint) (e : gev) : bool :=
  match e, t with
  | VCall, Some _ => false
  | VAdd _, Some (PStore _ _) => false
  | VRemove _, Some PLoad | VRemove _, Some (PDec _) | VRemove _, Some (PStore _ _) => false
  | _, _ => true
  end.
Fixpoint clean (size : nat) (s : gsys) (es : list gev) : Prop :=
  match es with
  | [] => True
  | e :: t => clean_ev (g_task s) e = true /\ forall s1 o, gstep size s e = Some (s1, o) -> clean size s1 t
  end.
