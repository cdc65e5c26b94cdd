(** Model of the check of the process image with two controllers: source/sync/io_can_sync.c and
    source/sync/io_can_sync_handler.c, build with LI_CAN_SLV_MON and LI_CAN_SLV_SYNC_CHECK_MODULE_NR_AND_DLC, without
    LI_CAN_SLV_MAIN_MON.  Line numbers are those of io_can_sync.c unless a file is named.

    Simplifications: the table of modules does not change and no module is silent (NodeModel has both for the main controller);
    tx_dlc, tx_dlc_sync and the DLC in the transmit control block of an object are the same number, likewise rx_dlc and
    rx_dlc_sync; each object has 8 bytes of memory of its own; an event is one run of an interrupt handler, the handlers do not
    interrupt each other; a frame event carries the table position under which its message object was registered
    (io_can_mon.c:315-341; the message objects accept one identifier each, io_can_config.c:2242, 2328); error counters,
    periods and the queue of error messages are left out. *)
From Verif Require Import Words NodeModel.

(** a conversion function: the bytes it writes to the start of its destination, from the 8 bytes of a frame and the DLC
    (include/li_can_slv/config/io_can_config_types.h:128-129).  Its error code is returned by the callers and ignored by the
    handlers (io_can_sync_handler.c:150, 332, 370); the counters are increased all the same. *)
Definition cv := list byte -> N -> list byte.
Record robj := RObj { ro_dlc : N; ro_main : cv; ro_mon : cv }.                              (* rx_dlc_sync, rx_main_sync, rx_mon_sync *)
(** tx_main_sync: from the 8 bytes of the application, None: an error *)
Record tobj := TObj { to_dlc : N; to_main : list byte -> N -> option (list byte); to_mon : cv }.  (* tx_dlc_sync, tx_main_sync, tx_mon_sync *)
Record mmod := MMod { mm_nr : N; mm_rx : list robj; mm_tx : list tobj }.
Definition mtab := list mmod.

Definition cells (A : Type) := nat -> nat -> A.
Definition setc {A} (f : cells A) (p o : nat) (v : A) : cells A :=
  fun p' o' => if ((p' =? p) && (o' =? o))%nat then v else f p' o'.

(** can_sync (include/li_can_slv/sync/io_can_sync.h:95-127), can_sync_data_main_tx and can_sync_data_mon_rx, the application's
    objects *)
Record mon := Mon {
  b_mflag : bool; b_mcnt : N; b_mdlc : N;      (* main_pr_flag, main_pr_cnt, main_pr_dlc *)
  b_nflag : bool; b_ncnt : N; b_ndlc : N;      (* mon_pr_flag, mon_pr_cnt, mon_pr_dlc *)
  b_mrx : cells N; b_nrx : cells N; b_ntx : cells N;   (* main_rx_cnt, mon_rx_cnt, mon_tx_cnt *)
  b_apprx : cells (list byte);                 (* can_config_module_tab[].rx[] *)
  b_apptx : cells (list byte);                 (* can_config_module_tab[].tx[] *)
  b_cap : cells (list byte);                   (* can_sync_data_main_tx *)
  b_monrx : cells (list byte) }.               (* can_sync_data_mon_rx *)

Definition w_main f n d s := Mon f n d (b_nflag s) (b_ncnt s) (b_ndlc s) (b_mrx s) (b_nrx s) (b_ntx s) (b_apprx s) (b_apptx s) (b_cap s) (b_monrx s).
Definition w_mon f n d s := Mon (b_mflag s) (b_mcnt s) (b_mdlc s) f n d (b_mrx s) (b_nrx s) (b_ntx s) (b_apprx s) (b_apptx s) (b_cap s) (b_monrx s).
Definition w_mrx x s := Mon (b_mflag s) (b_mcnt s) (b_mdlc s) (b_nflag s) (b_ncnt s) (b_ndlc s) x (b_nrx s) (b_ntx s) (b_apprx s) (b_apptx s) (b_cap s) (b_monrx s).
Definition w_nrx x s := Mon (b_mflag s) (b_mcnt s) (b_mdlc s) (b_nflag s) (b_ncnt s) (b_ndlc s) (b_mrx s) x (b_ntx s) (b_apprx s) (b_apptx s) (b_cap s) (b_monrx s).
Definition w_ntx x s := Mon (b_mflag s) (b_mcnt s) (b_mdlc s) (b_nflag s) (b_ncnt s) (b_ndlc s) (b_mrx s) (b_nrx s) x (b_apprx s) (b_apptx s) (b_cap s) (b_monrx s).
Definition w_apprx x s := Mon (b_mflag s) (b_mcnt s) (b_mdlc s) (b_nflag s) (b_ncnt s) (b_ndlc s) (b_mrx s) (b_nrx s) (b_ntx s) x (b_apptx s) (b_cap s) (b_monrx s).
Definition w_apptx x s := Mon (b_mflag s) (b_mcnt s) (b_mdlc s) (b_nflag s) (b_ncnt s) (b_ndlc s) (b_mrx s) (b_nrx s) (b_ntx s) (b_apprx s) x (b_cap s) (b_monrx s).
Definition w_cap x s := Mon (b_mflag s) (b_mcnt s) (b_mdlc s) (b_nflag s) (b_ncnt s) (b_ndlc s) (b_mrx s) (b_nrx s) (b_ntx s) (b_apprx s) (b_apptx s) x (b_monrx s).
Definition w_monrx x s := Mon (b_mflag s) (b_mcnt s) (b_mdlc s) (b_nflag s) (b_ncnt s) (b_ndlc s) (b_mrx s) (b_nrx s) (b_ntx s) (b_apprx s) (b_apptx s) (b_cap s) x.

(** counters are 0 after the start of the program; 405-448 can_sync_init clears the buffers of the first module only, their
    contents before the first use are arbitrary here *)
Definition mon0 (apprx apptx cap monrx : cells (list byte)) : mon :=
  Mon false 0 0 false 0 0 (fun _ _ => 0) (fun _ _ => 0) (fun _ _ => 0) apprx apptx cap monrx.

(** what the application sees: the verdict on a module (image_valid and the two callbacks, 1010-1034), the hook of the whole
    image (1038-1045), frames given to the transmit FIFO *)
Inductive mobs :=
| OVerdict (pos : nat) (valid : bool) (now : N)
| OImage (now : N)
| OSent (pos obj : nat) (id dlc : N) (data : list byte).

(** the destination after a conversion *)
Definition put (new old : list byte) : list byte := new ++ skipn (length new) old.
(** can_port_memory_cmp (memcmp) is 0 *)
Definition same (n : N) (a b : list byte) : bool :=
  if list_eq_dec N.eq_dec (firstn (N.to_nat n) a) (firstn (N.to_nat n) b) then true else false.

(** module number in the identifier of a frame of the node: ((can_id - 0x400) >> 2) + 1 (line 811) *)
Definition tx_nr (id : N) : N := u16 (((id + 262144 - 1024) / 4) + 1).
(** CAN_SYNC_OBJ_MASK *)
Definition obj_of (id : N) : nat := N.to_nat (N.land id 3).

(** 459-475 can_sync_rx_process_main; 668-683 can_sync_rx_process_mon *)
Definition rx_process_main (dlc : N) (s : mon) : mon := w_main true (u16 (b_mcnt s + 1)) dlc s.
Definition rx_process_mon (dlc : N) (s : mon) : mon := w_mon true (u16 (b_ncnt s + 1)) dlc s.

(** 490-584 can_sync_rx_data_main; an object that is not configured has no conversion function: None *)
Definition rx_data_main (c : mtab) (pos : nat) (id dlc : N) (data : list byte) (s : mon) : option mon :=
  match nth_error c pos with
  | None => None
  | Some m =>
      if negb (rx_nr id =? mm_nr m) then Some s
      else match nth_error (mm_rx m) (obj_of id) with
           | None => None
           | Some r =>
               if negb (dlc =? ro_dlc r) then Some s
               else let o := obj_of id in
                    Some (w_mrx (setc (b_mrx s) pos o (u16 (b_mrx s pos o + 1)))
                         (w_apprx (setc (b_apprx s) pos o (put (ro_main r data dlc) (b_apprx s pos o))) s))
           end
  end.
(** 698-762 can_sync_rx_data_mon *)
Definition rx_data_mon (c : mtab) (pos : nat) (id dlc : N) (data : list byte) (s : mon) : option mon :=
  match nth_error c pos with
  | None => None
  | Some m =>
      if negb (rx_nr id =? mm_nr m) then Some s
      else match nth_error (mm_rx m) (obj_of id) with
           | None => None
           | Some r =>
               if negb (dlc =? ro_dlc r) then Some s
               else let o := obj_of id in
                    Some (w_nrx (setc (b_nrx s) pos o (u16 (b_nrx s pos o + 1)))
                         (w_monrx (setc (b_monrx s) pos o (put (ro_mon r data dlc) (b_monrx s pos o))) s))
           end
  end.
(** 781-888 can_sync_tx_data_mon; [junk]: the contents of the stack under tmp_data *)
Definition tx_data_mon (c : mtab) (pos : nat) (id dlc : N) (data junk : list byte) (s : mon) : option mon :=
  match nth_error c pos with
  | None => None
  | Some m =>
      if negb (tx_nr id =? mm_nr m) then Some s
      else match nth_error (mm_tx m) (obj_of id) with
           | None => None
           | Some t =>
               if negb (dlc =? to_dlc t) then Some s
               else let o := obj_of id in
                    if same dlc (b_cap s pos o) (put (to_mon t data dlc) junk)
                    then Some (w_ntx (setc (b_ntx s) pos o (u16 (b_ntx s pos o + 1))) s)
                    else Some s
           end
  end.

(** 1312-1340 li_can_slv_sync_clear_process_image; positions outside of the table have no objects *)
Definition nrx (c : mtab) (pos : nat) : nat := match nth_error c pos with Some m => length (mm_rx m) | None => O end.
Definition ntx (c : mtab) (pos : nat) : nat := match nth_error c pos with Some m => length (mm_tx m) | None => O end.
Definition clear_image (c : mtab) (s : mon) : mon :=
  w_mrx (fun p o => if (o <? nrx c p)%nat then 0 else b_mrx s p o)
  (w_nrx (fun p o => if (o <? nrx c p)%nat then 0 else b_nrx s p o)
  (w_ntx (fun p o => if (o <? ntx c p)%nat then 0 else b_ntx s p o)
  (w_main false 0 (b_mdlc s) (w_mon false 0 (b_ndlc s) s)))).

(** 1348-1391 li_can_slv_sync_check_process_image_module: the two loops stop at the first object that fails *)
Fixpoint check_tx (pos : nat) (s : mon) (o n : nat) : bool :=
  match n with
  | O => true
  | S n' => if b_ntx s pos o =? 1 then check_tx pos s (S o) n' else false
  end.
Fixpoint check_rx (pos : nat) (s : mon) (o : nat) (l : list robj) : bool :=
  match l with
  | [] => true
  | r :: l' =>
      if negb (b_mrx s pos o =? 1) then false
      else if negb (b_nrx s pos o =? 1) then false
      else if negb (same (ro_dlc r) (b_monrx s pos o) (b_apprx s pos o)) then false
      else check_rx pos s (S o) l'
  end.
Definition check_module (pos : nat) (m : mmod) (s : mon) : bool :=
  if check_tx pos s 0 (length (mm_tx m)) then check_rx pos s 0 (mm_rx m) else false.

(** 1008-1036: the loop over the modules *)
Fixpoint check_modules (pos : nat) (l : mtab) (s : mon) (now : N) : list mobs * bool :=
  match l with
  | [] => ([], true)
  | m :: l' =>
      let v := check_module pos m s in
      let '(o, all) := check_modules (S pos) l' s now in
      (OVerdict pos v now :: o, v && all)
  end.
(** 959-1060 li_can_slv_sync_check_process_image *)
Definition check_image (c : mtab) (now : N) (s : mon) : mon * list mobs :=
  if b_mflag s && b_nflag s then
    if 1 <? b_mdlc s then (clear_image c s, [])
    else if 1 <? b_ndlc s then (clear_image c s, [])
    else if negb (b_mcnt s =? 1) then (clear_image c s, [])
    else if negb (b_ncnt s =? 1) then (clear_image c s, [])
    else let '(o, all) := check_modules 0 c s now in
         (clear_image c s, o ++ if all then [OImage now] else [])
  else (s, []).

(** 599-656 can_sync_tx_data_main, and io_can_main.c:586-668 can_main_sync_send_process_data: all transmit objects in the
    order of the table; the capture happens before the conversion.  The identifiers are those of io_can_config.c:2212. *)
Fixpoint send_objs (pos : nat) (nr : N) (o : nat) (l : list tobj) (s : mon) : mon * list mobs :=
  match l with
  | [] => (s, [])
  | t :: l' =>
      let app := b_apptx s pos o in
      let s1 := w_cap (setc (b_cap s) pos o app) s in
      let f := match to_main t app (to_dlc t) with
               | Some d => [OSent pos o (1024 + 4 * (nr - 1) + N.of_nat o) (to_dlc t) d]
               | None => []
               end in
      let '(s2, f2) := send_objs pos nr (S o) l' s1 in (s2, f ++ f2)
  end.
Fixpoint send_all (pos : nat) (l : mtab) (s : mon) : mon * list mobs :=
  match l with
  | [] => (s, [])
  | m :: l' =>
      let '(s1, f1) := send_objs pos (mm_nr m) 0 (mm_tx m) s in
      let '(s2, f2) := send_all (S pos) l' s1 in (s2, f1 ++ f2)
  end.

(** interrupts of the two controllers, and the application's accesses to its objects *)
Inductive mev :=
| MainReq (dlc now : N)                                       (* a process request on the main controller *)
| MonReq (dlc now : N)                                        (* a process request on the monitor *)
| MainData (pos : nat) (id dlc : N) (data : list byte)        (* a data frame of the master, main controller *)
| MonData (pos : nat) (id dlc : N) (data : list byte)         (* a data frame of the master, monitor *)
| MonTx (pos : nat) (id dlc : N) (data junk : list byte)      (* a frame of the node seen by the monitor *)
| AppTx (pos obj : nat) (x : list byte)                       (* the application writes a transmit object *)
| AppRx (pos obj : nat) (x : list byte).                      (* the application writes a receive object *)

(** io_can_sync_handler.c:102-288 can_sync_handler_rx (data frame 132-170, process request 174-209) and
    292-417 can_sync_handler_rx_mon (data 313-345, own frames 352-383, process request 398-413) *)
Definition mstep (c : mtab) (e : mev) (s : mon) : option (mon * list mobs) :=
  match e with
  | MainReq dlc now =>
      let '(s1, o1) := check_image c now s in
      let '(s2, o2) := send_all 0 c s1 in
      Some (rx_process_main dlc s2, o1 ++ o2)
  | MonReq dlc now =>
      let '(s1, o1) := check_image c now s in
      Some (rx_process_mon dlc s1, o1)
  | MainData pos id dlc data => option_map (fun s' => (s', [])) (rx_data_main c pos id dlc data s)
  | MonData pos id dlc data => option_map (fun s' => (s', [])) (rx_data_mon c pos id dlc data s)
  | MonTx pos id dlc data junk => option_map (fun s' => (s', [])) (tx_data_mon c pos id dlc data junk s)
  | AppTx pos obj x => Some (w_apptx (setc (b_apptx s) pos obj x) s, [])
  | AppRx pos obj x => Some (w_apprx (setc (b_apprx s) pos obj x) s, [])
  end.
Fixpoint mrun (c : mtab) (h : list mev) (s : mon) : option (mon * list mobs) :=
  match h with
  | [] => Some (s, [])
  | e :: h' =>
      match mstep c e s with
      | None => None
      | Some (s1, o1) => match mrun c h' s1 with None => None | Some (s2, o2) => Some (s2, o1 ++ o2) end
      end
  end.
