(** Model of the message objects of the monitor controller: source/core/io_can_mon.c, source/arch/canpie_adapter/io_can_mon_hw.c,
    include/li_can_slv/arch/io_can_mon_hw_inline.h and the parts of source/config/io_can_config.c and
    source/core/io_can.c that use them; build with LI_CAN_SLV_MON, without LI_CAN_SLV_MAIN_MON and without
    CAN_MON_CHECK_DEFINE_OBJECT (defined nowhere in the sources).

    Simplifications: the main controller's part of the functions (NodeModel) appears as a list of error codes, one for each
    place where it can fail; modules are named by their table position (the search for type and number is in NodeModel);
    can_mon_objs_mask is written but never read and left out; type changes are not modelled here; the bit 1L << msg_obj is
    taken as a 32-bit pattern. *)
From Verif Require Import Words ErrModel NodeModel MonModel.

(** a module: number, number of objects, rx_msg_obj_mon, tx_msg_obj_mon
    (include/li_can_slv/config/io_can_config_types.h) *)
Record cmod := CMod { cm_nr : N; cm_nrx : nat; cm_ntx : nat; cm_rx : list nat; cm_tx : list nat }.
(** one controller with 32 message objects at most *)
Record mcfg := MCfg {
  c_used : list bool;                 (* mon_msg_obj_used, io_can_mon_hw.c:90 *)
  c_filt : list (option (N * N));     (* the controller: identifier and mask of the receive objects *)
  c_mrx : N;                          (* can_mon_isr_inp_mask_rx *)
  c_mmain : N;                        (* can_mon_isr_inp_mask_rx_main *)
  c_rxtab : list (nat * nat);         (* can_mon_rx_msg_obj: message object, table position *)
  c_txtab : list (nat * nat);         (* can_mon_tx_msg_obj *)
  c_tab : list cmod;                  (* the used entries of can_config_module_tab *)
  c_orc : list bool;                  (* outcomes of CpCoreBufferConfig on this controller, all good after the end of the list *)
  c_main : list N }.                  (* error codes of the main controller's part, likewise *)
Definition set_used x s := MCfg x (c_filt s) (c_mrx s) (c_mmain s) (c_rxtab s) (c_txtab s) (c_tab s) (c_orc s) (c_main s).
Definition set_filt x s := MCfg (c_used s) x (c_mrx s) (c_mmain s) (c_rxtab s) (c_txtab s) (c_tab s) (c_orc s) (c_main s).
Definition set_mrx x s := MCfg (c_used s) (c_filt s) x (c_mmain s) (c_rxtab s) (c_txtab s) (c_tab s) (c_orc s) (c_main s).
Definition set_mmain x s := MCfg (c_used s) (c_filt s) (c_mrx s) x (c_rxtab s) (c_txtab s) (c_tab s) (c_orc s) (c_main s).
Definition set_rxtab x s := MCfg (c_used s) (c_filt s) (c_mrx s) (c_mmain s) x (c_txtab s) (c_tab s) (c_orc s) (c_main s).
Definition set_txtab x s := MCfg (c_used s) (c_filt s) (c_mrx s) (c_mmain s) (c_rxtab s) x (c_tab s) (c_orc s) (c_main s).
Definition set_tab x s := MCfg (c_used s) (c_filt s) (c_mrx s) (c_mmain s) (c_rxtab s) (c_txtab s) x (c_orc s) (c_main s).
Definition set_orc x s := MCfg (c_used s) (c_filt s) (c_mrx s) (c_mmain s) (c_rxtab s) (c_txtab s) (c_tab s) x (c_main s).
Definition set_main x s := MCfg (c_used s) (c_filt s) (c_mrx s) (c_mmain s) (c_rxtab s) (c_txtab s) (c_tab s) (c_orc s) x.
Definition cmod0 := CMod 0 0 0 [] [].
Definition cat (s : mcfg) (p : nat) : cmod := nth p (c_tab s) cmod0.
Fixpoint upd_at (l : list cmod) (p : nat) (f : cmod -> cmod) : list cmod :=
  match l, p with [], _ => [] | m :: t, O => f m :: t | m :: t, S p' => m :: upd_at t p' f end.
Definition with_nr n m := CMod n (cm_nrx m) (cm_ntx m) (cm_rx m) (cm_tx m).
Definition with_rx x m := CMod (cm_nr m) (cm_nrx m) (cm_ntx m) x (cm_tx m).
Definition with_tx x m := CMod (cm_nr m) (cm_nrx m) (cm_ntx m) (cm_rx m) x.

(** a function: error code and new state, None: an access outside of an array *)
Definition act := mcfg -> option (N * mcfg).
Definition done : act := fun s => Some (ERR_OK, s).
Definition fail (e : N) : act := fun s => Some (e, s).
Definition modi (f : mcfg -> mcfg) : act := fun s => Some (ERR_OK, f s).
(** if (err != LI_CAN_SLV_ERR_OK) return (err); *)
Definition seqa (a b : act) : act := fun s =>
  match a s with Some (e, s1) => if e =? ERR_OK then b s1 else Some (e, s1) | None => None end.
Fixpoint loop (n i : nat) (f : nat -> act) : act :=
  match n with O => done | S n' => seqa (f i) (loop n' (S i) f) end.
(** the main controller's part *)
Definition main_part : act := fun s => match c_main s with [] => Some (ERR_OK, s) | e :: r => Some (e, set_main r s) end.

(** the number of message objects of the controller and of modules *)
Record menv := MEnv { MM : nat; NM : nat }.
Definition menv_ok (E : menv) : Prop := (1 <= MM E <= 8)%nat /\ (5 <= NM E <= 32)%nat.
(** CAN_CONFIG_MSG_MON_OBJ_RX_PROCESS, CAN_CONFIG_MSG_MON_OBJ_RX_SYS1: li_can_slv_config_defines.h:50, 61 *)
Definition MON_PROCESS := 1%nat.
Definition MON_SYS1 := 4%nat.
(** CAN_CONFIG_SYNC_MON_MAX_NR_OF_TX_OBJ, li_can_slv_config_defines.h:90 *)
Definition MON_MAX_TX := 16%nat.
Definition E_MON_RX_CNFG : N := can_err 42.
Definition E_MON_TX_CNFG : N := can_err 43.

(** can_mon_service_id_t, io_can_mon_types.h:49-53 *)
Inductive msrv := IsrRxMain | IsrRx.

Section Env.
Variable E : menv.

(** io_can_mon.c:354-413 can_mon_define_msg_obj and io_can_mon_hw.c:189-239 can_mon_hw_define_msg_obj (all objects are receive
    objects) *)
Definition mon_define (mo : nat) (id mask : N) (sv : msrv) (sync : bool) : act := fun s =>
  if (mo <? NM E)%nat then
    let s1 := set_used (set_nth (c_used s) mo true) s in
    let '(good, s2) := match c_orc s1 with [] => (true, s1) | b :: r => (b, set_orc r s1) end in
    if good then
      let s3 := set_filt (set_nth (c_filt s2) mo (Some (id, mask))) s2 in
      Some (ERR_OK,
        if sync then match sv with
                     | IsrRxMain => set_mmain (N.lor (c_mmain s3) (bit mo)) s3
                     | IsrRx => set_mrx (N.lor (c_mrx s3) (bit mo)) s3
                     end
        else s3)
    else Some (E_INIT_FAILED, s2)
  else None.

(** io_can_mon.c:315-326 can_mon_msg_obj_rx_data_cnfg; 331-342 can_mon_msg_obj_tx_data_cnfg *)
Definition mon_rx_cnfg (mo pos : nat) : act := fun s =>
  if (length (c_rxtab s) <? MM E * NOBJ)%nat then Some (ERR_OK, set_rxtab (c_rxtab s ++ [(mo, pos)]) s) else Some (E_MON_RX_CNFG, s).
Definition mon_tx_cnfg (mo pos : nat) : act := fun s =>
  if (length (c_txtab s) <? MON_MAX_TX)%nat then Some (ERR_OK, set_txtab (c_txtab s ++ [(mo, pos)]) s) else Some (E_MON_TX_CNFG, s).

(** io_can.c:170-201: the monitor's message objects in li_can_slv_init; io_can_mon_hw.c:125-131 can_mon_hw_msg_obj_init.
    can_mon_init cannot fail here.  The tables and masks keep their contents; they are empty when the program starts. *)
Definition mon_init : act :=
  seqa (modi (fun s => set_filt (repeat None (NM E)) (set_used (repeat false (NM E)) s)))
  (seqa (mon_define MON_PROCESS 1 MASK_ONE IsrRx false) (mon_define MON_SYS1 ID_SYS MASK_ONE IsrRx false)).
Definition start (orc : list bool) (main : list N) : mcfg := MCfg [] [] 0 0 [] [] [] orc main.

(** io_can_config.c:2215-2254: one transmit object; can_main_sync_process_tx_data_cnfg cannot fail (position and object in range) *)
Definition tx_slot_mon (pos : nat) (nr : N) (i : nat) : act := fun s =>
  match first_free (c_used s) 0 with
  | None => Some (E_NO_MSG_OBJ, s)
  | Some mo =>
      seqa (modi (fun s => set_tab (upd_at (c_tab s) pos (fun m => with_tx (set_nth (cm_tx m) i mo) m)) s))
     (seqa (mon_define mo (can_ident BASE_TX nr i) MASK_ONE IsrRxMain true) (mon_tx_cnfg mo pos)) s
  end.
(** 2295-2341: one receive object; main controller first *)
Definition rx_slot_mon (pos : nat) (nr : N) (i : nat) : act :=
  seqa main_part (fun s =>
  match first_free (c_used s) 0 with
  | None => Some (E_NO_MSG_OBJ, s)
  | Some mo =>
      seqa (modi (fun s => set_tab (upd_at (c_tab s) pos (fun m => with_rx (set_nth (cm_rx m) i mo) m)) s))
     (seqa (mon_define mo (can_ident BASE_RX nr i) MASK_ONE IsrRx true) (mon_rx_cnfg mo pos)) s
  end).
(** 2173-2400 can_config_set_module, for the next free entry; the descriptor's message object numbers are copied at first *)
Definition set_module_mon (pos : nat) (nr0 : N) (nrx ntx : nat) (rx0 tx0 : list nat) : act :=
  let nr := limit_nr pos nr0 in
  seqa (modi (fun s => set_tab (c_tab s ++ [CMod nr nrx ntx rx0 tx0]) s))
 (seqa (loop ntx 0 (tx_slot_mon pos nr))
 (seqa (loop nrx 0 (rx_slot_mon pos nr)) main_part)).
(** 960-1027 can_config_add_module; the result here is the error of can_config_set_module, which add_module reports *)
Definition add_mon (nr : N) (nrx ntx : nat) (rx0 tx0 : list nat) : act := fun s =>
  let pos := length (c_tab s) in
  if (pos <? MM E)%nat then
    set_module_mon pos (if existsb (fun m => cm_nr m =? nr) (c_tab s) then NR_DEF + N.of_nat pos else nr) nrx ntx rx0 tx0 s
  else Some (E_MAX_MODULES, s).
(** 1781-1926 li_can_slv_config_change_module_nr_and_identifiers, for the module at [pos] *)
Definition renumber_mon (pos : nat) (new : N) : act := fun s =>
  if (pos <? length (c_tab s))%nat then
    let m := cat s pos in
    seqa (modi (fun s => set_tab (upd_at (c_tab s) pos (with_nr new)) s))
   (seqa (loop (cm_ntx m) 0 (fun i => mon_define (nth i (cm_tx m) 0%nat) (can_ident BASE_TX new i) MASK_ONE IsrRxMain true))
   (seqa (loop (cm_nrx m) 0 (fun i => seqa main_part (mon_define (nth i (cm_rx m) 0%nat) (can_ident BASE_RX new i) MASK_ONE IsrRx true)))
    main_part)) s
  else None.

(** operations *)
Inductive mop := MAdd (nr : N) (nrx ntx : nat) (rx0 tx0 : list nat) | MNr (pos : nat) (new : N).
Definition mon_op (o : mop) : act :=
  match o with MAdd nr nrx ntx rx0 tx0 => add_mon nr nrx ntx rx0 tx0 | MNr pos new => renumber_mon pos new end.

(** ** reception *)
(** io_can_mon_hw_inline.h:72-89 can_mon_synchron_rx, 99-116 can_mon_synchron_tx: the first entry whose mask has the bit *)
Definition mon_search (tab : list (nat * nat)) (mo : nat) : option nat :=
  option_map snd (find (fun e => negb (N.land (bit mo) (bit (fst e)) =? 0)) tab).
(** the controller stores a frame in object [mo] only if the filter of the object lets it pass *)
Definition mon_accepts (s : mcfg) (mo : nat) (id : N) : Prop :=
  match nth mo (c_filt s) None with Some (f, m) => N.land (N.lxor id f) m = 0 | None => False end.
(** io_can_sync_handler.c:292-417 can_sync_handler_rx_mon: what is called, as events of MonModel.  System messages
    (388-393) are ignored. *)
Definition mon_frame (s : mcfg) (mo : nat) (id dlc : N) (data junk : list byte) (now : N) : list mev :=
  (if negb (N.land (bit mo) (c_mrx s) =? 0) then
     match mon_search (c_rxtab s) mo with Some p => [MonData p id dlc data] | None => [] end else []) ++
  (if negb (N.land (bit mo) (c_mmain s) =? 0) then
     match mon_search (c_txtab s) mo with Some p => [MonTx p id dlc data junk] | None => [] end else []) ++
  (if (mo =? MON_PROCESS)%nat then [MonReq dlc now] else []).
End Env.
