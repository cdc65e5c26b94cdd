(** Specification of the buffer: a list of at most [size] bytes, oldest first. *)
From Verif Require Import Words ErrModel XBufModel.

(** value of a hexadecimal digit character, as a table *)
Definition digit_table : list (N * N) :=
  [(48,0);(49,1);(50,2);(51,3);(52,4);(53,5);(54,6);(55,7);(56,8);(57,9);
   (65,10);(66,11);(67,12);(68,13);(69,14);(70,15);
   (97,10);(98,11);(99,12);(100,13);(101,14);(102,15)].
Fixpoint lookup (t : list (N * N)) (c : N) : option N :=
  match t with [] => None | (k, v) :: r => if k =? c then Some v else lookup r c end.

(** value denoted by the longest prefix of [cs] that consists of digits, most significant digit first *)
Fixpoint digits (cs : list N) : list N :=
  match cs with
  | [] => []
  | c :: r => match lookup digit_table c with Some d => d :: digits r | None => [] end
  end.
Fixpoint weigh (ds : list N) : N :=
  match ds with [] => 0 | d :: r => d * 16 ^ N.of_nat (length r) + weigh r end.
Definition hexvalue (cs : list N) : N := weigh (digits cs).

(** spelling of a digit *)
Inductive spelled : N -> N -> Prop := Spelled : forall c d, In (c, d) digit_table -> spelled c d.

Definition lift_hex (n : nat) (l : list byte) : list byte * xout :=
  if (n <=? length l)%nat then (skipn n l, XVal ERR_OK (Some (hexvalue (firstn n l))))
  else ([], XVal ERR_BUF_UNDERFLOW None).

Definition list_step (size : nat) (l : list byte) (o : xop) : list byte * xout :=
  match o with
  | XAdd x => if (length l <? size)%nat then (l ++ [x], XErr ERR_OK) else (l, XErr ERR_BUF_OVERFLOW)
  | XGet => match l with [] => (l, XVal ERR_BUF_UNDERFLOW None) | x :: r => (r, XVal ERR_OK (Some x)) end
  | XHexByte | XHex16 => lift_hex 2 l
  | XHex32 => lift_hex 4 l
  | XLen => (l, XLenIs (length l))
  | XAddStr s => if (length l + length s <? size)%nat then (l ++ s, XErr ERR_OK) else (l, XErr ERR_BUF_OVERFLOW)
  | XRemove n => if (n <=? length l)%nat then (firstn (length l - n) l, XErr ERR_OK) else (l, XErr ERR_BUF_UNDERFLOW)
  | XStore | XRestore => (l, XErr ERR_OK)
  end.

Fixpoint list_run (size : nat) (l : list byte) (ops : list xop) : list byte * list xout :=
  match ops with
  | [] => (l, [])
  | o :: rest => let '(l1, out) := list_step size l o in
                 let '(l2, outs) := list_run size l1 rest in (l2, out :: outs)
  end.

(** operations that only read *)
Definition only_reads (o : xop) : bool :=
  match o with XGet | XHexByte | XHex16 | XHex32 | XLen => true | _ => false end.
Definition no_restore (o : xop) : bool := match o with XRestore => false | _ => true end.
