(** Model of the conversion functions in verify/io_app_conv/io_app_convc.c (line numbers of that file).  Memory is a list of bytes,
    a pointer is an offset; [le]: the platform is little endian; [None]: an access outside of the buffer. *)
From Verif Require Import Words.

Definition get (m : list byte) (i : nat) : option byte := nth_error m i.
Definition load16 (le : bool) (m : list byte) (o : nat) : option N :=
  match get m o, get m (o + 1) with Some a, Some b => Some (if le then a + 256 * b else 256 * a + b) | _, _ => None end.
Definition store16 (le : bool) (m : list byte) (o : nat) (v : N) : option (list byte) :=
  let lo := u8 v in let hi := u8 (N.shiftr v 8) in
  match upd m o (if le then lo else hi) with Some m1 => upd m1 (o + 1) (if le then hi else lo) | None => None end.
Definition load32 (le : bool) (m : list byte) (o : nat) : option N :=
  match load16 le m o, load16 le m (o + 2) with Some a, Some b => Some (if le then a + 65536 * b else 65536 * a + b) | _, _ => None end.
Definition store32 (le : bool) (m : list byte) (o : nat) (v : N) : option (list byte) :=
  let lo := u16 v in let hi := u16 (N.shiftr v 16) in
  match store16 le m o (if le then lo else hi) with Some m1 => store16 le m1 (o + 2) (if le then hi else lo) | None => None end.

(** io_app_convc.h:48-60 APP_CONV_ROTL16, APP_CONV_ROTL32 (the promotion to int of the shifted 16-bit value is harmless) *)
Definition rotl16 (v : N) (n : N) : N := N.lor (N.land (u16 (N.shiftl v n)) 65535) (N.shiftr v (16 - n)).
Definition rotl32 (v : N) (n : N) : N := N.lor (N.land (u32 (u32 (N.shiftl v n))) 4294967295) (N.shiftr v (32 - n)).

(** byte loops: read index going up, write index going up or down *)
Fixpoint copy_up (src : list byte) (so : nat) (dst : list byte) (d : nat) (n : nat) : option (list byte) :=
  match n with
  | O => Some dst
  | S n' => match get src so with
            | None => None
            | Some b => match upd dst d b with None => None | Some dst1 => copy_up src (so + 1) dst1 (d + 1) n' end
            end
  end.
Fixpoint copy_down (src : list byte) (so : nat) (dst : list byte) (d : nat) (n : nat) : option (list byte) :=
  match n with
  | O => Some dst
  | S n' => match get src so with
            | None => None
            | Some b => match upd dst (d + n') b with None => None | Some dst1 => copy_down src (so + 1) dst1 d n' end
            end
  end.
(** loops over words: every word is read, changed by [f] and written *)
Fixpoint conv16 (f : N -> N) (le : bool) (src : list byte) (so : nat) (dst : list byte) (d : nat) (n : nat) : option (list byte) :=
  match n with
  | O => Some dst
  | S n' => match load16 le src so with
            | None => None
            | Some v => match store16 le dst d (f v) with None => None | Some dst1 => conv16 f le src (so + 2) dst1 (d + 2) n' end
            end
  end.
Fixpoint conv32 (f : N -> N) (le : bool) (src : list byte) (so : nat) (dst : list byte) (d : nat) (n : nat) : option (list byte) :=
  match n with
  | O => Some dst
  | S n' => match load32 le src so with
            | None => None
            | Some v => match store32 le dst d (f v) with None => None | Some dst1 => conv32 f le src (so + 4) dst1 (d + 4) n' end
            end
  end.
Definition half (dlc : N) : nat := N.to_nat (N.shiftr dlc 1).   (* nr = dlc >> 1 *)
Definition quarter (dlc : N) : nat := N.to_nat (N.shiftr dlc 2).  (* nr = dlc >> 2 *)

(** 62-96 app_convc_main_rx_bit, 105-139 app_convc_mon_rx_bit *)
Definition rx_bit (le : bool) (can : list byte) (app : list byte) (p : nat) (dlc : N) : option (list byte) :=
  if le then copy_up can 0 app p (N.to_nat dlc) else copy_down can 0 app p (N.to_nat dlc).
(** 148-183 app_convc_tx_bit *)
Definition tx_bit (le : bool) (can : list byte) (app : list byte) (p : nat) (dlc : N) : option (list byte) :=
  if le then copy_up app p can 0 (N.to_nat dlc) else copy_down app p can 0 (N.to_nat dlc).
(** 192-226 app_convc_main_rx_nibble, 235-269 app_convc_mon_rx_nibble *)
Definition rx_nibble (le : bool) (can : list byte) (app : list byte) (p : nat) (dlc : N) : option (list byte) :=
  conv16 (fun v => v) le can 0 app p (half dlc).
(** 278-312 app_convc_tx_nibble *)
Definition tx_nibble (le : bool) (can : list byte) (app : list byte) (p : nat) (dlc : N) : option (list byte) :=
  conv16 (fun v => v) le app p can 0 (half dlc).
(** 321-343 app_convc_main_rx_uint16, 351-373 app_convc_mon_rx_uint16 *)
Definition rx_uint16 (le : bool) (can : list byte) (app : list byte) (p : nat) (dlc : N) : option (list byte) :=
  conv16 (fun v => if le then rotl16 v 8 else v) le can 0 app p (half dlc).
(** 381-403 app_convc_tx_uint16 *)
Definition tx_uint16 (le : bool) (can : list byte) (app : list byte) (p : nat) (dlc : N) : option (list byte) :=
  conv16 (fun v => if le then rotl16 v 8 else v) le app p can 0 (half dlc).
(** 411-454 app_convc_main_rx_uint32, 463-506 app_convc_mon_rx_uint32; the swap happens in the message buffer,
    word by word, so each word is read before it is written.  The do-while
    loops around plain memory are executed once. *)
Definition rx_uint32 (le : bool) (can : list byte) (app : list byte) (p : nat) (dlc : N) : option (list byte) :=
  let n := quarter dlc in
  match (if le then conv16 (fun v => rotl16 v 8) le can 0 can 0 (2 * n) else Some can) with
  | None => None
  | Some can1 => conv32 (fun v => if le then rotl32 v 16 else v) le can1 0 app p n
  end.
(** 515-547 app_convc_tx_uint32 *)
Definition tx_uint32 (le : bool) (can : list byte) (app : list byte) (p : nat) (dlc : N) : option (list byte) :=
  let n := quarter dlc in
  match conv16 (fun v => if le then rotl16 v 8 else v) le app p can 0 (2 * n) with
  | None => None
  | Some can1 => if le then conv32 (fun v => rotl32 v 16) le can1 0 can1 0 n else Some can1
  end.

(** 557-588 app_convc_sint32_to_sint20 (little endian platforms only); the three values as 32-bit patterns *)
Definition sint32_to_sint20 (can : list byte) (app : list byte) (p : nat) : option (list byte) :=
  match load32 true app p, load32 true app (p + 4), load32 true app (p + 8) with
  | Some a, Some b, Some c =>
      copy_up [u8 (N.shiftr a 12); u8 (N.shiftr a 4);
               N.lor (u8 (u32 (N.shiftl a 4))) (u8 (N.land 15 (N.shiftr b 16)));
               u8 (N.shiftr b 8); u8 b;
               u8 (N.shiftr c 12); u8 (N.shiftr c 4); u8 (u32 (N.shiftl c 4))] 0 can 0 8
  | _, _, _ => None
  end.

(** 596-616 app_convc_main_rx_uint12_msg_obj_1: loop at word offset [w] *)
Fixpoint rx12_high (can : list byte) (r : nat) (app : list byte) (w : nat) (n : nat) : option (list byte) :=
  match n with
  | O => Some app
  | S n' => match load16 true app w, get can r with
            | Some v, Some b =>
                match store16 true app w (u16 (N.lor (N.land v 15) (N.shiftl b 4))) with
                | None => None
                | Some a1 => rx12_high can (r + 1) a1 (w + 2) n'
                end
            | _, _ => None
            end
  end.
Definition rx_uint12_1 (can app : list byte) (p : nat) (dlc : N) : option (list byte) := rx12_high can 0 app p (N.to_nat dlc).
(** 624-646 app_convc_main_rx_uint12_msg_obj_2 *)
Definition rx_uint12_2 (can app : list byte) (p : nat) (dlc : N) : option (list byte) := rx12_high can 0 app (p + 8) (N.to_nat dlc).
(** 654-690 app_convc_main_rx_uint12_msg_obj_3; a pointer before the memory is an access outside *)
Fixpoint rx12_low (can : list byte) (r : nat) (app : list byte) (w : nat) (n : nat) : option (list byte) :=
  match n with
  | O => Some app
  | S n' => match get can r, load16 true app w with
            | Some b, Some v =>
                match store16 true app w (N.lor (N.land v 65520) (N.shiftr (N.land b 240) 4)) with
                | None => None
                | Some a1 =>
                    match load16 true a1 (w + 2) with
                    | None => None
                    | Some v2 => match store16 true a1 (w + 2) (N.lor (N.land (N.land v2 65520) 65520) (N.land b 15)) with
                                 | None => None
                                 | Some a2 => rx12_low can (r + 1) a2 (w + 4) n'
                                 end
                    end
                end
            | _, _ => None
            end
  end.
Definition rx_uint12_3 (can app : list byte) (p : nat) (dlc : N) : option (list byte) :=
  if (p <? 16)%nat then None else rx12_low can 0 app (p - 16) (N.to_nat dlc).
(** 698-715 app_convc_main_tx_uint12_msg_obj_1 *)
Fixpoint tx12_high (app : list byte) (r : nat) (can : list byte) (w : nat) (n : nat) : option (list byte) :=
  match n with
  | O => Some can
  | S n' => match load16 true app r with
            | None => None
            | Some v => match upd can w (u8 (N.shiftr v 4)) with None => None | Some c1 => tx12_high app (r + 2) c1 (w + 1) n' end
            end
  end.
Definition tx_uint12_1 (can app : list byte) (p : nat) (dlc : N) : option (list byte) := tx12_high app p can 0 (N.to_nat dlc).
(** 723-742 app_convc_main_tx_uint12_msg_obj_2 *)
Definition tx_uint12_2 (can app : list byte) (p : nat) (dlc : N) : option (list byte) := tx12_high app (p + 8) can 0 (N.to_nat dlc).
(** 750-781 app_convc_main_tx_uint12_msg_obj_3 *)
Fixpoint tx12_low (app : list byte) (r : nat) (can : list byte) (w : nat) (n : nat) : option (list byte) :=
  match n with
  | O => Some can
  | S n' => match load16 true app r, load16 true app (r + 2), get can w with
            | Some v, Some v2, Some c =>
                match upd can w (N.lor (N.lor (N.land c 0) (u8 (N.shiftl (u8 (N.land v 15)) 4))) (u8 (N.land v2 15))) with
                | None => None
                | Some c1 => tx12_low app (r + 4) c1 (w + 1) n'
                end
            | _, _, _ => None
            end
  end.
Definition tx_uint12_3 (can app : list byte) (p : nat) (dlc : N) : option (list byte) :=
  if (p <? 16)%nat then None else tx12_low app (p - 16) can 0 (N.to_nat dlc).

(** source/sync/io_can_sync.c:601-642 can_sync_tx_data_main: eight bytes of the application object are copied into object
    [obj] of a local buffer of four objects, whose other bytes ([junk]) are not initialised, and the conversion gets a
    pointer to the copy *)
Definition tx_main (conv : list byte -> list byte -> nat -> N -> option (list byte))
  (can app : list byte) (p : nat) (junk : list byte) (obj : nat) (dlc : N) : option (list byte) :=
  match copy_up app p junk (8 * obj) 8 with
  | None => None
  | Some tmp => conv can tmp (8 * obj)%nat dlc
  end.
