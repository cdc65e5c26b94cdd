(** Properties C38, C39, C40: the download buffer. *)
From Verif Require Import Words ErrModel XBufModel XBufSpec XBufProofs.

(** C38: every sequence of buffer calls behaves like a list of at most [size] bytes (same result of every call),
    never leaves the storage, and the length reported is the length of the list. *)
Theorem C38_buffer_fifo : forall size ops, (0 < size)%nat -> forallb no_restore ops = true ->
  exists b, xb_run size (xb_zero size) ops = Some (b, snd (list_run size [] ops))
        /\ xb_len b = length (fst (list_run size [] ops)) /\ (xb_len b <= size)%nat.
Proof. exact buffer_is_fifo. Qed.
Print Assumptions C38_buffer_fifo.

Example C38_case :
  snd (list_run 3 [] [XAdd 1; XAdd 2; XGet; XAdd 3; XAdd 4; XAdd 5; XRemove 1; XLen; XGet; XGet; XGet; XAddStr [7; 8]; XAddStr [9]; XRemove 4])
  = [XErr 0; XErr 0; XVal 0 (Some 1); XErr 0; XErr 0; XErr ERR_BUF_OVERFLOW; XErr 0; XLenIs 2; XVal 0 (Some 2); XVal 0 (Some 3);
     XVal ERR_BUF_UNDERFLOW None; XErr 0; XErr ERR_BUF_OVERFLOW; XErr ERR_BUF_UNDERFLOW].
Proof. vm_compute. reflexivity. Qed.

(** C39: after a checkpoint, any reads and a rollback, everything that follows behaves as if the reads had not
    happened; [_partial] because nothing may be added between checkpoint and rollback. *)
Theorem C39_rollback_partial : forall size pre reads post, (0 < size)%nat ->
  forallb no_restore pre = true -> forallb only_reads reads = true -> forallb no_restore post = true ->
  let l := fst (list_run size [] pre) in
  exists b, xb_run size (xb_zero size) (pre ++ XStore :: reads ++ XRestore :: post)
   = Some (b, snd (list_run size [] pre) ++ XErr ERR_OK :: snd (list_run size l reads) ++ XErr ERR_OK :: snd (list_run size l post)).
Proof. exact rollback_replays. Qed.
Print Assumptions C39_rollback_partial.

Example C39_case :
  forallb no_restore [XAdd 65; XAdd 66; XAdd 67] = true /\ forallb only_reads [XGet; XHexByte] = true
  /\ snd (list_run 4 [65; 66; 67] [XGet; XHexByte]) = [XVal 0 (Some 65); XVal 0 (Some 188)].
Proof. repeat split; vm_compute; reflexivity. Qed.

(** C39 as stated (bytes may arrive in between) is false: the byte [x] that arrived is forgotten by the rollback
    (length 0), and when [y] arrives next, the reader gets [x]. *)
Theorem C39_rollback_refuted : forall size x y, (3 <= size)%nat -> x <> y ->
  exists b, xb_run size (xb_zero size) [XStore; XAdd x; XRestore; XLen; XAdd y; XGet]
    = Some (b, [XErr 0; XErr 0; XErr 0; XLenIs 0; XErr 0; XVal 0 (Some x)]).
Proof. exact rollback_refuted. Qed.
Print Assumptions C39_rollback_refuted.

(** C40: the conversion of up to eight characters is the value of the hexadecimal digits, upper or lower case,
    most significant first; it stops at the first other character. *)
Theorem C40_hex_value : forall cs, (length cs <= 8)%nat -> hexchars 0 cs = hexvalue cs.
Proof. exact hexchars_exact. Qed.
Print Assumptions C40_hex_value.

(** C40: any spelling of the digits [ds] of a number denotes that number. *)
Theorem C40_hex_spelling : forall cs ds, Forall2 spelled cs ds -> (length cs <= 8)%nat ->
  hexchars 0 cs = weigh ds.
Proof. exact hexchars_spelled. Qed.
Print Assumptions C40_hex_spelling.

(** C40: the stream readers return the value of exactly the 2, 2 or 4 characters at the front of the buffer and
    consume exactly these (fewer characters: underflow). *)
Theorem C40_hex_stream : forall size pre, (0 < size)%nat -> forallb no_restore pre = true ->
  let l := fst (list_run size [] pre) in
  forall o n, (o = XHexByte /\ n = 2 \/ o = XHex16 /\ n = 2 \/ o = XHex32 /\ n = 4)%nat ->
  (n <= length l)%nat ->
  exists b, xb_run size (xb_zero size) (pre ++ [o; XLen])
   = Some (b, snd (list_run size [] pre) ++ [XVal ERR_OK (Some (hexvalue (firstn n l))); XLenIs (length l - n)]).
Proof. exact hex_stream. Qed.
Print Assumptions C40_hex_stream.

Example C40_case : hexchars 0 [49; 97; 70] = 431 /\ Forall2 spelled [49; 97; 70] [1; 10; 15] /\ weigh [1; 10; 15] = 431.
Proof. split; [vm_compute; reflexivity|]. split; [|vm_compute; reflexivity].
  repeat constructor; vm_compute; tauto. Qed.
