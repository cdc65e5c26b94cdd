(** Model of the public function that clears the receive data of a module: source/sync/io_can_sync.c:896-936
    can_sync_clr_rx_data_main_mon, build with LI_CAN_SLV_MON and without LI_CAN_SLV_MAIN_MON.

    Simplifications: those of MonModel (rx_obj and rx_obj_sync are the same number: no module is silent); the function runs
    without an interrupt in between; a conversion that reports an error has written its bytes all the same. *)
From Verif Require Import Words NodeModel MonModel.

(** clear_data (900) *)
Definition zeros : list byte := repeat 0 8.

(** 910-933: the loop over the objects; [err o false] and [err o true]: the conversion of object [o] for the main controller or
    the monitor reports an error.  The result tells whether the function returns LI_CAN_SLV_ERR_OK. *)
Fixpoint clr_objs (err : nat -> bool -> bool) (pos o : nat) (l : list robj) (s : mon) : mon * bool :=
  match l with
  | [] => (s, true)
  | r :: l' =>
      let s1 := w_apprx (setc (b_apprx s) pos o (put (ro_main r zeros (ro_dlc r)) (b_apprx s pos o))) s in
      if err o false then (s1, false)
      else let s2 := w_monrx (setc (b_monrx s1) pos o (put (ro_mon r zeros (ro_dlc r)) (b_monrx s1 pos o))) s1 in
           if err o true then (s2, false)
           else clr_objs err pos (S o) l' s2
  end.
(** 902-905: positions from LI_CAN_SLV_MAX_NR_OF_LOGICAL_MODULES ([max]) on are refused; a free position of the table has no
    objects *)
Definition clr_rx (max : nat) (err : nat -> bool -> bool) (c : mtab) (pos : nat) (s : mon) : mon * bool :=
  if (max <=? pos)%nat then (s, false)
  else match nth_error c pos with
       | None => (s, true)
       | Some m => clr_objs err pos 0 (mm_rx m) s
       end.
