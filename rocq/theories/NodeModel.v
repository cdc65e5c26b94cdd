(** Model of one node: configuration (source/config/io_can_config.c), message objects and
    process data transmission (source/core/io_can_main.c, source/core/io_can.c,
    source/arch/canpie_adapter/io_can_main_hw.c), synchronous process
    (source/sync/io_can_sync.c, io_can_sync_handler.c) and system messages
    (source/sys/io_can_sys.c).

    Build modelled: OUTER, LI_CAN_SLV_SYS_MODULE_ERROR, LI_CAN_SLV_SYS_CHANGE_MODULE_NR,
    LI_CAN_SLV_SYS_CHANGE_MODULE_TYPE, LI_CAN_SLV_SYS_FACTORY_RESET_CBK, without MON, MAIN_MON,
    RECONNECT and tunnel.  LI_CAN_SLV_ASYNC, LI_CAN_SLV_SYS_OBJ2,
    LI_CAN_SLV_SYNC_CHECK_MODULE_NR_AND_DLC, CAN_MAIN_CHECK_DEFINE_OBJECT and the numeric
    configuration values are parameters (record [env]).

    Simplifications: one reading of the tick counter per received frame; callbacks are
    recorded, they do not call back into the library; a conversion function reads and writes
    only the application object it is given; a C type string is compared over at most its
    5 bytes; diagnostics and debug prints are left out. *)
From Verif Require Import Words ErrModel.

(** outcome of a C function: a result, undefined behaviour, or a loop that never ends *)
Inductive res (A : Type) := Ret (a : A) | Undef | Hang.
Arguments Ret {A} a. Arguments Undef {A}. Arguments Hang {A}.

(** io_can_config_types.h:128-129: conversion functions.
    receive: CAN bytes, old application object, dlc -> new application object, error code;
    transmit: old CAN buffer, copy of the application object, dlc -> CAN buffer, error code *)
Definition rxconv := list byte -> list byte -> N -> list byte * N.
Definition txconv := list byte -> list byte -> N -> list byte * N.
(** io_can_config_types.h lcsa_module_change_voter_state_t: type, new number, actual number -> decision *)
Definition voter := list byte -> N -> N -> N.

(** observable effects *)
Inductive event :=
| EvTx (id dlc : N) (data : list byte) (ok : bool)   (* frame given to the transmit FIFO; ok = accepted *)
| EvVerdict (pos : nat) (valid : bool) (cb : option N) (now : N)  (* image of a module evaluated, callback called *)
| EvImage (cb : option N) (now : N)                  (* whole image valid *)
| EvProcReq (pos : nat) (cb : N)                     (* process request callback of a module *)
| EvFirstReq (cb : option N)                         (* first process request *)
| EvFirstStatus (cb : option N)                      (* first status request *)
| EvTime (cb : N) (time : N) (zone : Z) (dst : bool)
| EvReset (cb : N) (what : N)
| EvSilent (cb : N) (pos : nat) (type : list byte) (nr state : N)
| EvType (cb : N) (type : list byte)
| EvRate (rate : N).                                 (* bit rate programmed into the controller *)

(** io_can_config_types.h:115-170: what li_can_slv_config_module_t holds for one receive object (elements [i] of its rx_* arrays; arrays of the C struct are transposed into one record per object) *)
Record rxo := RxO {
  r_addr : nat;   (* rx[i], application object *)
  r_dlc : N;   (* rx_dlc[i] *)
  r_conv : option rxconv;   (* rx_main[i], None = NULL *)
  r_dlc_s : N;   (* rx_dlc_sync[i] *)
  r_conv_s : option rxconv;   (* rx_main_sync[i] *)
  r_mo : nat   (* rx_msg_obj_main[i] *)
}.
Definition set_r_addr (r : rxo) (x : nat) : rxo := RxO x (r_dlc r) (r_conv r) (r_dlc_s r) (r_conv_s r) (r_mo r).
Definition set_r_dlc (r : rxo) (x : N) : rxo := RxO (r_addr r) x (r_conv r) (r_dlc_s r) (r_conv_s r) (r_mo r).
Definition set_r_conv (r : rxo) (x : option rxconv) : rxo := RxO (r_addr r) (r_dlc r) x (r_dlc_s r) (r_conv_s r) (r_mo r).
Definition set_r_dlc_s (r : rxo) (x : N) : rxo := RxO (r_addr r) (r_dlc r) (r_conv r) x (r_conv_s r) (r_mo r).
Definition set_r_conv_s (r : rxo) (x : option rxconv) : rxo := RxO (r_addr r) (r_dlc r) (r_conv r) (r_dlc_s r) x (r_mo r).
Definition set_r_mo (r : rxo) (x : nat) : rxo := RxO (r_addr r) (r_dlc r) (r_conv r) (r_dlc_s r) (r_conv_s r) x.

(** io_can_config_types.h:115-170: what the struct holds for one transmit object *)
Record txo := TxO {
  t_addr : nat;   (* tx[i], application object *)
  t_dlc : N;   (* tx_dlc[i] *)
  t_conv : option txconv;   (* tx_main[i] *)
  t_dlc_s : N;   (* tx_dlc_sync[i] *)
  t_conv_s : option txconv   (* tx_main_sync[i] *)
}.
Definition set_t_addr (r : txo) (x : nat) : txo := TxO x (t_dlc r) (t_conv r) (t_dlc_s r) (t_conv_s r).
Definition set_t_dlc (r : txo) (x : N) : txo := TxO (t_addr r) x (t_conv r) (t_dlc_s r) (t_conv_s r).
Definition set_t_conv (r : txo) (x : option txconv) : txo := TxO (t_addr r) (t_dlc r) x (t_dlc_s r) (t_conv_s r).
Definition set_t_dlc_s (r : txo) (x : N) : txo := TxO (t_addr r) (t_dlc r) (t_conv r) x (t_conv_s r).
Definition set_t_conv_s (r : txo) (x : option txconv) : txo := TxO (t_addr r) (t_dlc r) (t_conv r) (t_dlc_s r) x.

(** io_can_config_types.h:115-170 li_can_slv_config_module_t (also used as the constant descriptor an application hands to add_module). [m_rx]/[m_tx] always have 4 elements. *)
Record modl := Modl {
  m_type : list byte;   (* type[5], NUL terminated *)
  m_nr : N;   (* module_nr *)
  m_nrx : nat;   (* rx_obj *)
  m_nrx_s : nat;   (* rx_obj_sync *)
  m_ntx : nat;   (* tx_obj *)
  m_ntx_s : nat;   (* tx_obj_sync *)
  m_rx : list rxo;   (* receive objects *)
  m_tx : list txo   (* transmit objects *)
}.
Definition set_m_type (r : modl) (x : list byte) : modl := Modl x (m_nr r) (m_nrx r) (m_nrx_s r) (m_ntx r) (m_ntx_s r) (m_rx r) (m_tx r).
Definition set_m_nr (r : modl) (x : N) : modl := Modl (m_type r) x (m_nrx r) (m_nrx_s r) (m_ntx r) (m_ntx_s r) (m_rx r) (m_tx r).
Definition set_m_nrx (r : modl) (x : nat) : modl := Modl (m_type r) (m_nr r) x (m_nrx_s r) (m_ntx r) (m_ntx_s r) (m_rx r) (m_tx r).
Definition set_m_nrx_s (r : modl) (x : nat) : modl := Modl (m_type r) (m_nr r) (m_nrx r) x (m_ntx r) (m_ntx_s r) (m_rx r) (m_tx r).
Definition set_m_ntx (r : modl) (x : nat) : modl := Modl (m_type r) (m_nr r) (m_nrx r) (m_nrx_s r) x (m_ntx_s r) (m_rx r) (m_tx r).
Definition set_m_ntx_s (r : modl) (x : nat) : modl := Modl (m_type r) (m_nr r) (m_nrx r) (m_nrx_s r) (m_ntx r) x (m_rx r) (m_tx r).
Definition set_m_rx (r : modl) (x : list rxo) : modl := Modl (m_type r) (m_nr r) (m_nrx r) (m_nrx_s r) (m_ntx r) (m_ntx_s r) x (m_tx r).
Definition set_m_tx (r : modl) (x : list txo) : modl := Modl (m_type r) (m_nr r) (m_nrx r) (m_nrx_s r) (m_ntx r) (m_ntx_s r) (m_rx r) x.

(** io_can_config_types.h can_config_change_module_type_t: one entry of the module type change table *)
Record chent := ChEnt {
  c_desc : modl;   (* can_config_module *)
  c_rx : list nat;   (* rx[4] *)
  c_tx : list nat;   (* tx[4] *)
  c_cb : option N   (* callback *)
}.
Definition set_c_desc (r : chent) (x : modl) : chent := ChEnt x (c_rx r) (c_tx r) (c_cb r).
Definition set_c_rx (r : chent) (x : list nat) : chent := ChEnt (c_desc r) x (c_tx r) (c_cb r).
Definition set_c_tx (r : chent) (x : list nat) : chent := ChEnt (c_desc r) (c_rx r) x (c_cb r).
Definition set_c_cb (r : chent) (x : option N) : chent := ChEnt (c_desc r) (c_rx r) (c_tx r) x.

(** io_can_config.c:95-700 static variables of the configuration *)
Record cfgst := CfgSt {
  k_tab : list modl;   (* can_config_module_tab *)
  k_silent : list N;   (* can_config_module_silent *)
  k_nmod : nat;   (* can_config_nr_of_modules *)
  k_bdr : N;   (* can_config_bdr_current.baudrate *)
  k_bdrtab : list N;   (* can_config_bdr_tab[].baudrate *)
  k_bdrstart : N;   (* can_config_bdr_startup *)
  k_actrl : list nat;   (* can_config_async_ctrl_rx_objs *)
  k_chg : list (option chent);   (* can_config_change_module_type_tab *)
  k_silcb : option N;   (* can_config_set_module_silent_awake_call *)
  k_voter : option voter   (* module_nr_change_validator *)
}.
Definition set_k_tab (r : cfgst) (x : list modl) : cfgst := CfgSt x (k_silent r) (k_nmod r) (k_bdr r) (k_bdrtab r) (k_bdrstart r) (k_actrl r) (k_chg r) (k_silcb r) (k_voter r).
Definition set_k_silent (r : cfgst) (x : list N) : cfgst := CfgSt (k_tab r) x (k_nmod r) (k_bdr r) (k_bdrtab r) (k_bdrstart r) (k_actrl r) (k_chg r) (k_silcb r) (k_voter r).
Definition set_k_nmod (r : cfgst) (x : nat) : cfgst := CfgSt (k_tab r) (k_silent r) x (k_bdr r) (k_bdrtab r) (k_bdrstart r) (k_actrl r) (k_chg r) (k_silcb r) (k_voter r).
Definition set_k_bdr (r : cfgst) (x : N) : cfgst := CfgSt (k_tab r) (k_silent r) (k_nmod r) x (k_bdrtab r) (k_bdrstart r) (k_actrl r) (k_chg r) (k_silcb r) (k_voter r).
Definition set_k_bdrtab (r : cfgst) (x : list N) : cfgst := CfgSt (k_tab r) (k_silent r) (k_nmod r) (k_bdr r) x (k_bdrstart r) (k_actrl r) (k_chg r) (k_silcb r) (k_voter r).
Definition set_k_bdrstart (r : cfgst) (x : N) : cfgst := CfgSt (k_tab r) (k_silent r) (k_nmod r) (k_bdr r) (k_bdrtab r) x (k_actrl r) (k_chg r) (k_silcb r) (k_voter r).
Definition set_k_actrl (r : cfgst) (x : list nat) : cfgst := CfgSt (k_tab r) (k_silent r) (k_nmod r) (k_bdr r) (k_bdrtab r) (k_bdrstart r) x (k_chg r) (k_silcb r) (k_voter r).
Definition set_k_chg (r : cfgst) (x : list (option chent)) : cfgst := CfgSt (k_tab r) (k_silent r) (k_nmod r) (k_bdr r) (k_bdrtab r) (k_bdrstart r) (k_actrl r) x (k_silcb r) (k_voter r).
Definition set_k_silcb (r : cfgst) (x : option N) : cfgst := CfgSt (k_tab r) (k_silent r) (k_nmod r) (k_bdr r) (k_bdrtab r) (k_bdrstart r) (k_actrl r) (k_chg r) x (k_voter r).
Definition set_k_voter (r : cfgst) (x : option voter) : cfgst := CfgSt (k_tab r) (k_silent r) (k_nmod r) (k_bdr r) (k_bdrtab r) (k_bdrstart r) (k_actrl r) (k_chg r) (k_silcb r) x.

(** io_can_main.c can_main_sync_process_tx_data_ctrl (include/li_can_slv/core/io_can_main.h) *)
Record txst := TxSt {
  x_reg : N;   (* send_reg, 32 bit *)
  x_end : nat;   (* send_end *)
  x_id : list (list N);   (* id[MAX][4] *)
  x_dlc : list (list N)   (* dlc[MAX][4] *)
}.
Definition set_x_reg (r : txst) (x : N) : txst := TxSt x (x_end r) (x_id r) (x_dlc r).
Definition set_x_end (r : txst) (x : nat) : txst := TxSt (x_reg r) x (x_id r) (x_dlc r).
Definition set_x_id (r : txst) (x : list (list N)) : txst := TxSt (x_reg r) (x_end r) x (x_dlc r).
Definition set_x_dlc (r : txst) (x : list (list N)) : txst := TxSt (x_reg r) (x_end r) (x_id r) x.

(** io_can_main.c masks and receive table, canpie_adapter/io_can_main_hw.c:81 msg_obj_used and the filters programmed into the CAN controller, io_can.c node mode *)
Record hwst := HwSt {
  h_used : list bool;   (* msg_obj_used *)
  h_filt : list (option (N * N));   (* acceptance filter (identifier, mask) of each receive message object *)
  h_mask_rx : N;   (* can_main_isr_inp_mask_rx *)
  h_mask_ctrl : N;   (* can_main_async_ctrl_objs_mask *)
  h_mask_async : N;   (* can_main_async_objs_mask *)
  h_rxtab : list (nat * nat);   (* li_can_slv_sync_main_rx_msg_obj[0..used): message object, table position *)
  h_mode : N;   (* li_can_slv_mode *)
  h_drv : N;   (* mode of the CAN controller driver: 0 stopped, 1 started *)
  h_rate : option N;   (* bit rate programmed last into the CAN controller *)
  h_xrate : option N   (* baud rate saved by li_can_slv_xload_info_set_can_baudrate *)
}.
Definition set_h_used (r : hwst) (x : list bool) : hwst := HwSt x (h_filt r) (h_mask_rx r) (h_mask_ctrl r) (h_mask_async r) (h_rxtab r) (h_mode r) (h_drv r) (h_rate r) (h_xrate r).
Definition set_h_filt (r : hwst) (x : list (option (N * N))) : hwst := HwSt (h_used r) x (h_mask_rx r) (h_mask_ctrl r) (h_mask_async r) (h_rxtab r) (h_mode r) (h_drv r) (h_rate r) (h_xrate r).
Definition set_h_mask_rx (r : hwst) (x : N) : hwst := HwSt (h_used r) (h_filt r) x (h_mask_ctrl r) (h_mask_async r) (h_rxtab r) (h_mode r) (h_drv r) (h_rate r) (h_xrate r).
Definition set_h_mask_ctrl (r : hwst) (x : N) : hwst := HwSt (h_used r) (h_filt r) (h_mask_rx r) x (h_mask_async r) (h_rxtab r) (h_mode r) (h_drv r) (h_rate r) (h_xrate r).
Definition set_h_mask_async (r : hwst) (x : N) : hwst := HwSt (h_used r) (h_filt r) (h_mask_rx r) (h_mask_ctrl r) x (h_rxtab r) (h_mode r) (h_drv r) (h_rate r) (h_xrate r).
Definition set_h_rxtab (r : hwst) (x : list (nat * nat)) : hwst := HwSt (h_used r) (h_filt r) (h_mask_rx r) (h_mask_ctrl r) (h_mask_async r) x (h_mode r) (h_drv r) (h_rate r) (h_xrate r).
Definition set_h_mode (r : hwst) (x : N) : hwst := HwSt (h_used r) (h_filt r) (h_mask_rx r) (h_mask_ctrl r) (h_mask_async r) (h_rxtab r) x (h_drv r) (h_rate r) (h_xrate r).
Definition set_h_drv (r : hwst) (x : N) : hwst := HwSt (h_used r) (h_filt r) (h_mask_rx r) (h_mask_ctrl r) (h_mask_async r) (h_rxtab r) (h_mode r) x (h_rate r) (h_xrate r).
Definition set_h_rate (r : hwst) (x : option N) : hwst := HwSt (h_used r) (h_filt r) (h_mask_rx r) (h_mask_ctrl r) (h_mask_async r) (h_rxtab r) (h_mode r) (h_drv r) x (h_xrate r).
Definition set_h_xrate (r : hwst) (x : option N) : hwst := HwSt (h_used r) (h_filt r) (h_mask_rx r) (h_mask_ctrl r) (h_mask_async r) (h_rxtab r) (h_mode r) (h_drv r) (h_rate r) x.

(** io_can_sync.c:96-330 can_sync and the callback pointers *)
Record syncst := SyncSt {
  y_pr_cnt : N;   (* main_pr_cnt *)
  y_pr_flag : bool;   (* main_pr_flag = 0xFFFF *)
  y_pr_dlc : N;   (* main_pr_dlc *)
  y_cnt : list (list N);   (* main_rx_cnt[MAX][4], uint16 *)
  y_per : N;   (* pr_periode *)
  y_ts : N;   (* main_pr_timestamp *)
  y_cyc : N;   (* pr_cycle_time *)
  y_tv : N;   (* pr_time_valid *)
  y_tvm : list N;   (* pr_time_valid_module *)
  y_img : list bool;   (* image_valid *)
  y_cbv : list (option N);   (* can_sync_process_image_valid_cbk_table *)
  y_cbn : list (option N);   (* can_sync_process_image_not_valid_cbk_table *)
  y_cbr : list (option N);   (* can_sync_process_request_rx_cbk_table *)
  y_cbp : option N;   (* can_sync_process_call *)
  y_cbf : option N;   (* can_sync_first_process_request_call *)
  y_first : bool   (* can_sync_first_process_detect *)
}.
Definition set_y_pr_cnt (r : syncst) (x : N) : syncst := SyncSt x (y_pr_flag r) (y_pr_dlc r) (y_cnt r) (y_per r) (y_ts r) (y_cyc r) (y_tv r) (y_tvm r) (y_img r) (y_cbv r) (y_cbn r) (y_cbr r) (y_cbp r) (y_cbf r) (y_first r).
Definition set_y_pr_flag (r : syncst) (x : bool) : syncst := SyncSt (y_pr_cnt r) x (y_pr_dlc r) (y_cnt r) (y_per r) (y_ts r) (y_cyc r) (y_tv r) (y_tvm r) (y_img r) (y_cbv r) (y_cbn r) (y_cbr r) (y_cbp r) (y_cbf r) (y_first r).
Definition set_y_pr_dlc (r : syncst) (x : N) : syncst := SyncSt (y_pr_cnt r) (y_pr_flag r) x (y_cnt r) (y_per r) (y_ts r) (y_cyc r) (y_tv r) (y_tvm r) (y_img r) (y_cbv r) (y_cbn r) (y_cbr r) (y_cbp r) (y_cbf r) (y_first r).
Definition set_y_cnt (r : syncst) (x : list (list N)) : syncst := SyncSt (y_pr_cnt r) (y_pr_flag r) (y_pr_dlc r) x (y_per r) (y_ts r) (y_cyc r) (y_tv r) (y_tvm r) (y_img r) (y_cbv r) (y_cbn r) (y_cbr r) (y_cbp r) (y_cbf r) (y_first r).
Definition set_y_per (r : syncst) (x : N) : syncst := SyncSt (y_pr_cnt r) (y_pr_flag r) (y_pr_dlc r) (y_cnt r) x (y_ts r) (y_cyc r) (y_tv r) (y_tvm r) (y_img r) (y_cbv r) (y_cbn r) (y_cbr r) (y_cbp r) (y_cbf r) (y_first r).
Definition set_y_ts (r : syncst) (x : N) : syncst := SyncSt (y_pr_cnt r) (y_pr_flag r) (y_pr_dlc r) (y_cnt r) (y_per r) x (y_cyc r) (y_tv r) (y_tvm r) (y_img r) (y_cbv r) (y_cbn r) (y_cbr r) (y_cbp r) (y_cbf r) (y_first r).
Definition set_y_cyc (r : syncst) (x : N) : syncst := SyncSt (y_pr_cnt r) (y_pr_flag r) (y_pr_dlc r) (y_cnt r) (y_per r) (y_ts r) x (y_tv r) (y_tvm r) (y_img r) (y_cbv r) (y_cbn r) (y_cbr r) (y_cbp r) (y_cbf r) (y_first r).
Definition set_y_tv (r : syncst) (x : N) : syncst := SyncSt (y_pr_cnt r) (y_pr_flag r) (y_pr_dlc r) (y_cnt r) (y_per r) (y_ts r) (y_cyc r) x (y_tvm r) (y_img r) (y_cbv r) (y_cbn r) (y_cbr r) (y_cbp r) (y_cbf r) (y_first r).
Definition set_y_tvm (r : syncst) (x : list N) : syncst := SyncSt (y_pr_cnt r) (y_pr_flag r) (y_pr_dlc r) (y_cnt r) (y_per r) (y_ts r) (y_cyc r) (y_tv r) x (y_img r) (y_cbv r) (y_cbn r) (y_cbr r) (y_cbp r) (y_cbf r) (y_first r).
Definition set_y_img (r : syncst) (x : list bool) : syncst := SyncSt (y_pr_cnt r) (y_pr_flag r) (y_pr_dlc r) (y_cnt r) (y_per r) (y_ts r) (y_cyc r) (y_tv r) (y_tvm r) x (y_cbv r) (y_cbn r) (y_cbr r) (y_cbp r) (y_cbf r) (y_first r).
Definition set_y_cbv (r : syncst) (x : list (option N)) : syncst := SyncSt (y_pr_cnt r) (y_pr_flag r) (y_pr_dlc r) (y_cnt r) (y_per r) (y_ts r) (y_cyc r) (y_tv r) (y_tvm r) (y_img r) x (y_cbn r) (y_cbr r) (y_cbp r) (y_cbf r) (y_first r).
Definition set_y_cbn (r : syncst) (x : list (option N)) : syncst := SyncSt (y_pr_cnt r) (y_pr_flag r) (y_pr_dlc r) (y_cnt r) (y_per r) (y_ts r) (y_cyc r) (y_tv r) (y_tvm r) (y_img r) (y_cbv r) x (y_cbr r) (y_cbp r) (y_cbf r) (y_first r).
Definition set_y_cbr (r : syncst) (x : list (option N)) : syncst := SyncSt (y_pr_cnt r) (y_pr_flag r) (y_pr_dlc r) (y_cnt r) (y_per r) (y_ts r) (y_cyc r) (y_tv r) (y_tvm r) (y_img r) (y_cbv r) (y_cbn r) x (y_cbp r) (y_cbf r) (y_first r).
Definition set_y_cbp (r : syncst) (x : option N) : syncst := SyncSt (y_pr_cnt r) (y_pr_flag r) (y_pr_dlc r) (y_cnt r) (y_per r) (y_ts r) (y_cyc r) (y_tv r) (y_tvm r) (y_img r) (y_cbv r) (y_cbn r) (y_cbr r) x (y_cbf r) (y_first r).
Definition set_y_cbf (r : syncst) (x : option N) : syncst := SyncSt (y_pr_cnt r) (y_pr_flag r) (y_pr_dlc r) (y_cnt r) (y_per r) (y_ts r) (y_cyc r) (y_tv r) (y_tvm r) (y_img r) (y_cbv r) (y_cbn r) (y_cbr r) (y_cbp r) x (y_first r).
Definition set_y_first (r : syncst) (x : bool) : syncst := SyncSt (y_pr_cnt r) (y_pr_flag r) (y_pr_dlc r) (y_cnt r) (y_per r) (y_ts r) (y_cyc r) (y_tv r) (y_tvm r) (y_img r) (y_cbv r) (y_cbn r) (y_cbr r) (y_cbp r) (y_cbf r) x.

(** io_can_sys.c:60-128 static variables *)
Record sysst := SysSt {
  z_first : bool;   (* can_sys_first_status_detect *)
  z_cbs : option N;   (* li_can_slv_sys_first_status_request_cbk *)
  z_cbt : option N;   (* li_can_slv_sys_system_time_cbk *)
  z_cbr : option N   (* li_can_slv_factory_reset_cbk *)
}.
Definition set_z_first (r : sysst) (x : bool) : sysst := SysSt x (z_cbs r) (z_cbt r) (z_cbr r).
Definition set_z_cbs (r : sysst) (x : option N) : sysst := SysSt (z_first r) x (z_cbt r) (z_cbr r).
Definition set_z_cbt (r : sysst) (x : option N) : sysst := SysSt (z_first r) (z_cbs r) x (z_cbr r).
Definition set_z_cbr (r : sysst) (x : option N) : sysst := SysSt (z_first r) (z_cbs r) (z_cbt r) x.

(** the whole slave *)
Record node := Node {
  n_cfg : cfgst;   (* configuration *)
  n_tx : txst;   (* process data transmission *)
  n_hw : hwst;   (* message objects and node mode *)
  n_sync : syncst;   (* synchronous process *)
  n_sys : sysst;   (* system messages *)
  n_err : errstore;   (* pending system errors (ErrModel) *)
  n_mem : list (list byte);   (* application objects, addressed by index; a NULL or dangling pointer is an index outside *)
  n_orc : list bool;   (* outcome of the next hardware calls, true = success; when the list is used up all calls succeed *)
  n_log : list event   (* observable effects, oldest first *)
}.
Definition set_n_cfg (r : node) (x : cfgst) : node := Node x (n_tx r) (n_hw r) (n_sync r) (n_sys r) (n_err r) (n_mem r) (n_orc r) (n_log r).
Definition set_n_tx (r : node) (x : txst) : node := Node (n_cfg r) x (n_hw r) (n_sync r) (n_sys r) (n_err r) (n_mem r) (n_orc r) (n_log r).
Definition set_n_hw (r : node) (x : hwst) : node := Node (n_cfg r) (n_tx r) x (n_sync r) (n_sys r) (n_err r) (n_mem r) (n_orc r) (n_log r).
Definition set_n_sync (r : node) (x : syncst) : node := Node (n_cfg r) (n_tx r) (n_hw r) x (n_sys r) (n_err r) (n_mem r) (n_orc r) (n_log r).
Definition set_n_sys (r : node) (x : sysst) : node := Node (n_cfg r) (n_tx r) (n_hw r) (n_sync r) x (n_err r) (n_mem r) (n_orc r) (n_log r).
Definition set_n_err (r : node) (x : errstore) : node := Node (n_cfg r) (n_tx r) (n_hw r) (n_sync r) (n_sys r) x (n_mem r) (n_orc r) (n_log r).
Definition set_n_mem (r : node) (x : list (list byte)) : node := Node (n_cfg r) (n_tx r) (n_hw r) (n_sync r) (n_sys r) (n_err r) x (n_orc r) (n_log r).
Definition set_n_orc (r : node) (x : list bool) : node := Node (n_cfg r) (n_tx r) (n_hw r) (n_sync r) (n_sys r) (n_err r) (n_mem r) x (n_log r).
Definition set_n_log (r : node) (x : list event) : node := Node (n_cfg r) (n_tx r) (n_hw r) (n_sync r) (n_sys r) (n_err r) (n_mem r) (n_orc r) x.

(** compile-time configuration and constants of the port *)
Record env := Env {
  MAXM : nat;      (* LI_CAN_SLV_MAX_NR_OF_LOGICAL_MODULES *)
  NMSG : nat;      (* LI_CAN_SLV_MAIN_NODE_MAX_NOF_MSG_OBJ *)
  PMAX : N;        (* LI_CAN_SLV_SYNC_PROCESS_PERIODE_MAX *)
  CHK : bool;      (* LI_CAN_SLV_SYNC_CHECK_MODULE_NR_AND_DLC *)
  CHKDEF : bool;   (* CAN_MAIN_CHECK_DEFINE_OBJECT *)
  SYS2 : bool;     (* LI_CAN_SLV_SYS_OBJ2 *)
  ASY : bool;      (* LI_CAN_SLV_ASYNC *)
  SERIAL : N;      (* can_port_get_serialnumber() *)
  BOOTMAJ : N; BOOTMIN : N; SWMAJ : N; SWMIN : N;   (* can_port_get_..._version_... *)
  IDENT : N; CHANGEIDX : N;  (* can_port_get_identnumber, can_port_get_changeindex *)
  JUNK : list byte (* content of uninitialised stack buffers *)
}.

(** ** state monad with undefined behaviour *)
Definition M (A : Type) := node -> res (A * node).
Definition ret {A} (a : A) : M A := fun s => Ret (a, s).
Definition bind {A B} (m : M A) (k : A -> M B) : M B := fun s =>
  match m s with Ret (a, s') => k a s' | Undef => Undef | Hang => Hang end.
Notation "x <- m ;; k" := (bind m (fun x => k)) (at level 61, m at next level, right associativity).
Notation "m ;;; k" := (bind m (fun _ => k)) (at level 61, right associativity).
Definition gets {A} (f : node -> A) : M A := fun s => Ret (f s, s).
Definition modify (f : node -> node) : M unit := fun s => Ret (tt, f s).
Definition undef {A} : M A := fun _ => Undef.
Definition guard (b : bool) : M unit := if b then ret tt else undef.
Definition emit (e : event) : M unit := modify (fun s => set_n_log s (n_log s ++ [e])).
Definition emit_cb (cb : option N) (e : N -> event) : M unit :=
  match cb with Some c => emit (e c) | None => ret tt end.

(** for (i = first; i < first + n; i++) with return on error *)
Fixpoint for_err (n first : nat) (f : nat -> M N) : M N :=
  match n with
  | O => ret ERR_OK
  | S n' => e <- f first ;; if e =? ERR_OK then for_err n' (S first) f else ret e
  end.
Fixpoint for_do (n first : nat) (f : nat -> M unit) : M unit :=
  match n with
  | O => ret tt
  | S n' => f first ;;; for_do n' (S first) f
  end.
(** if (err == LI_CAN_SLV_ERR_OK) err = ...; *)
Definition andthen (m1 m2 : M N) : M N := e <- m1 ;; if e =? ERR_OK then m2 else ret e.
Notation "m1 >>> m2" := (andthen m1 m2) (at level 60, right associativity).

(** outcome of a hardware call *)
Definition ask : M bool := fun s =>
  match n_orc s with [] => Ret (true, s) | b :: r => Ret (b, set_n_orc s r) end.

(** error numbers, include/li_can_slv/error/io_can_errno.h:107-240 *)
Definition E_UNDEFINED_ISR := can_err 3.
Definition E_INVALID_BAUDRATE := can_err 5.
Definition E_OBJ_NR := can_err 6.
Definition E_OBJ_ID := can_err 7.
Definition E_OBJ_DLC := can_err 8.
Definition E_OVER_OBJECT_NR := can_err 10.
Definition E_MAX_MODULES := can_err 12.
Definition E_REDECLARED_NR := can_err 13.
Definition E_RX_WRONG_NR := can_err 17.
Definition E_RX_WRONG_DLC := can_err 18.
Definition E_NR_OF_RX_DATA := can_err 21.
Definition E_OVER_TABLE_POS := can_err 23.
Definition E_INIT_FAILED := can_err 25.
Definition E_NO_MSG_OBJ := can_err 35.
Definition E_RX_WRONG_SLOT := can_err 36.
Definition E_RX_DATA_CNFG := can_err 40.
Definition E_WRONG_TABLE_POS := can_err 44.
Definition E_TYPE_NOT_FOUND := can_err 50.
Definition E_SYS_DLC := can_err 59.
Definition E_SILENT_STATE := can_err 60.
Definition E_INVALID_MODULE_NR := can_err 67.
Definition E_MODULE_NOT_FOUND := can_err 91.
Definition E_SYS_UNKNOWN := can_err 101.
Definition E_TYPE_CHANGE := can_err 102.
Definition E_NOT_IMPLEMENTED := can_err 104.
Definition E_NO_BROADCAST := can_err 108.
Definition E_NO_DIRECT := can_err 117.
Definition E_CONFIG_INVALID := can_err 119.
Definition E_MSG_SEND := can_err 120.

(** li_can_slv_config_defines.h, io_can_main.h: identifiers and message objects *)
Definition MO_PROCESS := 0%nat.
Definition MO_SYS1 := 2%nat.
Definition MO_SYS2 := 3%nat.
Definition MO_ASYNC_DATA := 6%nat.
Definition MO_TX := 10%nat.
Definition ID_PROCESS : N := 1.
Definition ID_SYS : N := 2.
Definition MASK_ONE : N := 2047.       (* 0x7FF *)
Definition MASK_CLASS : N := 1539.     (* 0x603 *)
Definition BASE_SYS_TX : N := 3.
Definition BASE_RX : N := 512.         (* 0x200 *)
Definition BASE_TX : N := 1024.        (* 0x400 *)
Definition BASE_CTRL_RX : N := 1536.   (* 0x600 *)
Definition BASE_DATA_RX : N := 1538.   (* 0x602 *)
Definition NR_BROADCAST : N := 1.
Definition NR_MIN : N := 2.
Definition NR_MAX : N := 124.
Definition NR_DEF : N := 125.
Definition NOBJ := 4%nat.

Definition SILENT : N := 0.
Definition AWAKE : N := 1.
Definition MODE_INIT : N := 0.
Definition MODE_STOPPED : N := 1.
Definition MODE_OPERATIONAL : N := 2.
Definition MODE_LISTEN_ONLY : N := 3.

(** uint16 identifier base + ((nr - 1) << 2) + obj, as computed at
    io_can_main.c:443, 537; io_can_config.c:2209, 2291, 2334, 2375, 1802, 1846, 1881 *)
Definition can_ident (base nr : N) (obj : nat) : N := u16 (base + (nr + 65535) * 4 + N.of_nat obj).

(** include/li_can_slv/port string functions (string.h semantics, over byte lists that are NUL padded) *)
Fixpoint strn_eq (n : nat) (a b : list byte) : bool :=
  match n with
  | O => true
  | S n' => let x := hd 0 a in let y := hd 0 b in
            if x =? y then (if x =? 0 then true else strn_eq n' (tl a) (tl b)) else false
  end.
Fixpoint strn_cpy (n : nat) (a : list byte) : list byte :=
  match n with
  | O => []
  | S n' => let x := hd 0 a in if x =? 0 then repeat 0 n else x :: strn_cpy n' (tl a)
  end.

(** ** table access *)
Definition rxo0 := RxO 0 0 None 0 None 0.
Definition txo0 := TxO 0 0 None 0 None.
(** io_can_config.c:150-520: one unused slot with its default number *)
Definition slot0 (nr : N) : modl := Modl [0;0;0;0;0] nr 0 0 0 0 (repeat rxo0 NOBJ) (repeat txo0 NOBJ).
Definition modl0 := slot0 0.

Definition tab_of (s : node) : list modl := k_tab (n_cfg s).
Definition modat (s : node) (pos : nat) : modl := nth pos (tab_of s) modl0.
Definition silat (s : node) (pos : nat) : N := nth pos (k_silent (n_cfg s)) 0.
Definition nmod (s : node) : nat := k_nmod (n_cfg s).
Definition rxat (m : modl) (i : nat) : rxo := nth i (m_rx m) rxo0.
Definition txat (m : modl) (i : nat) : txo := nth i (m_tx m) txo0.

Definition upd_cfg (f : cfgst -> cfgst) (s : node) : node := set_n_cfg s (f (n_cfg s)).
Definition upd_tx (f : txst -> txst) (s : node) : node := set_n_tx s (f (n_tx s)).
Definition upd_hw (f : hwst -> hwst) (s : node) : node := set_n_hw s (f (n_hw s)).
Definition upd_sync (f : syncst -> syncst) (s : node) : node := set_n_sync s (f (n_sync s)).
Definition upd_sys (f : sysst -> sysst) (s : node) : node := set_n_sys s (f (n_sys s)).
Definition upd_mod (pos : nat) (f : modl -> modl) (s : node) : node :=
  upd_cfg (fun k => set_k_tab k (set_nth (k_tab k) pos (f (nth pos (k_tab k) modl0)))) s.
Definition upd_rx (i : nat) (f : rxo -> rxo) (m : modl) : modl :=
  set_m_rx m (set_nth (m_rx m) i (f (rxat m i))).
Definition upd_txo (i : nat) (f : txo -> txo) (m : modl) : modl :=
  set_m_tx m (set_nth (m_tx m) i (f (txat m i))).
(** a[i][j] = v *)
Definition set2 {A} (l : list (list A)) (i j : nat) (v : A) : list (list A) :=
  set_nth l i (set_nth (nth i l []) j v).
Definition get2 (l : list (list N)) (i j : nat) : N := nth j (nth i l []) 0.

(** io_can_error.c:139-149 error_syserr_send *)
Definition report (err prio module_nr : N) : M unit := fun s =>
  match syserr_send (n_err s) err prio module_nr with
  | Some (st, _) => Ret (tt, set_n_err s st)
  | None => Undef
  end.
(** io_can_config.c:1554-1557 can_config_get_module_nr_main *)
Definition nr_main (s : node) : N := m_nr (modat s 0).
(** the idiom: if (err != OK) error_syserr_send(err, ERR_LVL_INFO, main module number, ...) *)
Definition report_if (err : N) : M unit :=
  if err =? ERR_OK then ret tt else (nr <- gets nr_main ;; report err LVL_INFO nr).

Section WithEnv.
Variable E : env.

(** ** message objects *)

(** services of include/li_can_slv/core/io_can_main.h can_main_service_id_t *)
Inductive service := SvTx | SvRx | SvAsync | SvAsyncCtrl.

(** canpie_adapter/io_can_main_hw.c:211-294 can_main_hw_define_msg_obj: the object is marked used,
    then CpCoreBufferConfig (outcome from the oracle).  A transmit object gets no receive filter. *)
Definition hw_define (mo : nat) (id mask : N) (rx : bool) : M N :=
  guard (mo <? NMSG E)%nat ;;;
  modify (upd_hw (fun h => set_h_used h (set_nth (h_used h) mo true))) ;;;
  ok <- ask ;;
  if ok then
    modify (upd_hw (fun h => set_h_filt h (set_nth (h_filt h) mo (if rx then Some (id, mask) else None)))) ;;;
    ret ERR_OK
  else ret E_INIT_FAILED.

(** 1 << msg_obj as a 32-bit mask *)
Definition bit (mo : nat) : N := u32 (N.shiftl 1 (N.of_nat mo)).

(** io_can_main.c:682-753 can_main_define_msg_obj *)
Definition define_obj (mo : nat) (id mask dlc : N) (rx : bool) (sv : service) (is_sync : bool) : M N :=
  if CHKDEF E && negb (mo <? NMSG E)%nat then ret E_OBJ_NR
  else if CHKDEF E && (2047 <? id) then ret E_OBJ_ID
  else if CHKDEF E && (8 <? u8 dlc) then ret E_OBJ_DLC
  else
    hw_define mo id mask rx >>>
    (match sv with
     | SvTx => ret tt
     | SvRx => if is_sync then modify (upd_hw (fun h => set_h_mask_rx h (N.lor (h_mask_rx h) (bit mo)))) else ret tt
     | SvAsync => modify (upd_hw (fun h => set_h_mask_async h (N.lor (h_mask_async h) (bit mo))))
     | SvAsyncCtrl => modify (upd_hw (fun h => set_h_mask_ctrl h (N.lor (h_mask_ctrl h) (bit mo))))
     end ;;; ret ERR_OK).

(** canpie_adapter/io_can_main_hw.c:147-171 can_main_hw_get_next_free_msg_obj *)
Fixpoint first_free (l : list bool) (i : nat) : option nat :=
  match l with
  | [] => None
  | b :: t => if b then first_free t (S i) else Some i
  end.
Definition next_free : M (option nat) := gets (fun s => first_free (h_used (n_hw s)) 0).

(** io_can_main.c:493-506 can_main_msg_obj_rx_data_cnfg; the table has MAX*4 entries *)
Definition rx_data_cnfg (mo pos : nat) : M N :=
  tab <- gets (fun s => h_rxtab (n_hw s)) ;;
  if (length tab <? MAXM E * NOBJ)%nat then
    modify (upd_hw (fun h => set_h_rxtab h (h_rxtab h ++ [(mo, pos)]))) ;;; ret ERR_OK
  else ret E_RX_DATA_CNFG.

(** ** process data transmission *)

(** (1 << obj) << (4 * table_pos), 32 bit: io_can_main.c:448-449, 466-467, 479-480 *)
Definition txbit (pos obj : nat) : N := u32 (N.shiftl 1 (N.of_nat (NOBJ * pos + obj))).

(** io_can_main.c:427-454 can_main_sync_process_tx_data_cnfg *)
Definition tx_data_cnfg (pos obj : nat) (nr : N) : M N :=
  if (MAXM E <=? pos)%nat then ret E_OVER_TABLE_POS
  else if (NOBJ <=? obj)%nat then ret E_OVER_OBJECT_NR
  else
    dlc <- gets (fun s => t_dlc (txat (modat s pos) obj)) ;;
    modify (upd_tx (fun x =>
      TxSt (N.lor (x_reg x) (txbit pos obj)) (NOBJ * pos + obj)
           (set2 (x_id x) pos obj (can_ident BASE_TX nr obj)) (set2 (x_dlc x) pos obj dlc))) ;;;
    ret ERR_OK.

(** io_can_main.c:462-469 can_main_synchron_tx_data_off; 475-482 ..._on *)
Definition tx_data_off (pos obj : nat) : M unit :=
  modify (upd_tx (fun x => set_x_reg x (N.ldiff (x_reg x) (txbit pos obj)))).
Definition tx_data_on (pos obj : nat) : M unit :=
  modify (upd_tx (fun x => set_x_reg x (N.lor (x_reg x) (txbit pos obj)))).

(** canpie_adapter/io_can_main_hw.c:334-358 can_main_hw_send_msg: copies dlc bytes of the buffer;
    more than 8 would leave both buffers *)
Definition send_msg (id dlc : N) (data : list byte) : M N :=
  guard (dlc <=? 8) ;;;
  ok <- ask ;;
  emit (EvTx id dlc (firstn (N.to_nat dlc) data) ok) ;;;
  ret (if ok then ERR_OK else E_MSG_SEND).

(** io_can_config.c:1483-1496 can_config_module_nr_valid: first slot of the whole table (used or not)
    with that number; (position, found) *)
Fixpoint find_nr (tab : list modl) (nr : N) (i : nat) : option nat :=
  match tab with
  | [] => None
  | m :: t => if m_nr m =? nr then Some i else find_nr t nr (S i)
  end.

(** io_can_main.c:524-541 can_main_send_queue_system_tx *)
Definition sys_tx (nr : N) (data : list byte) : M unit :=
  tab <- gets tab_of ;;
  match find_nr tab nr 0 with
  | None => ret tt
  | Some pos =>
      st <- gets (fun s => silat s pos) ;;
      if st =? AWAKE then send_msg (can_ident BASE_SYS_TX nr 0) 8 data ;;; ret tt else ret tt
  end.

(** ** conversions *)
(** io_can_config.c:2410-2432 rx_main_dummy, tx_main_dummy *)
Definition rx_dummy : rxconv := fun _ app _ => (app, ERR_OK).
Definition tx_dummy : txconv := fun can _ _ => (can, ERR_OK).

(** call of a receive conversion function through its pointer *)
Definition call_rx (f : option rxconv) (can : list byte) (addr : nat) (dlc : N) : M N :=
  match f with
  | None => undef
  | Some g =>
      mem <- gets n_mem ;;
      match nth_error mem addr with
      | None => undef
      | Some app =>
          let '(app', e) := g can app dlc in
          modify (fun s => set_n_mem s (set_nth (n_mem s) addr app')) ;;; ret e
      end
  end.

(** io_can_sync.c:599-656 can_sync_tx_data_main: four words of the application object are copied,
    then converted.  An application object shorter than 8 bytes is read out of bounds. *)
Definition tx_data_main (pos obj : nat) (dlc : N) (can : list byte) : M (list byte * N) :=
  o <- gets (fun s => txat (modat s pos) obj) ;;
  mem <- gets n_mem ;;
  match nth_error mem (t_addr o), t_conv_s o with
  | Some app, Some g =>
      guard (8 <=? length app)%nat ;;;
      ret (g can (firstn 8 app) dlc)
  | _, _ => undef
  end.

(** io_can_main.c:586-669 can_main_sync_send_process_data.
    [skip]: the inner loop, lines 624-628. *)
Fixpoint skip (n : nat) (send : N) (cur : nat) (x_end : nat) : N * nat :=
  match n with
  | O => (send, cur)
  | S n' => if (cur <=? x_end)%nat && negb (N.odd send) then skip n' (N.shiftr send 1) (S cur) x_end
            else (send, cur)
  end.
(** body of line 631-664 for one object *)
Definition send_one (cur : nat) (can : list byte) : M (list byte) :=
  let pos := (cur / NOBJ)%nat in
  let obj := (cur mod NOBJ)%nat in
  guard (pos <? MAXM E)%nat ;;;
  dlc <- gets (fun s => t_dlc (txat (modat s pos) obj)) ;;
  r <- tx_data_main pos obj dlc can ;;
  (if snd r =? ERR_OK then
     idl <- gets (fun s => (get2 (x_id (n_tx s)) pos obj, get2 (x_dlc (n_tx s)) pos obj)) ;;
     e <- send_msg (fst idl) (snd idl) (fst r) ;;
     report_if e
   else report_if (snd r)) ;;;
  ret (fst r).
(** the outer loop; running out of [fuel] is reported as Hang ([loop_stuck] in NodeNr shows
    that it then really never ends) *)
Fixpoint send_loop (fuel : nat) (send : N) (cur : nat) (can : list byte) : M unit :=
  match fuel with
  | O => fun _ => Hang
  | S fuel' =>
      if send =? 0 then ret tt
      else
        x_end <- gets (fun s => x_end (n_tx s)) ;;
        let '(send1, cur1) := skip (S x_end) send cur x_end in
        if N.odd send1 then
          can' <- send_one cur1 can ;;
          send_loop fuel' (N.shiftr send1 1) (S cur1) can'
        else send_loop fuel' send1 cur1 can
  end.
Definition SEND_FUEL := 34%nat.
Definition send_process_data : M unit :=
  reg <- gets (fun s => x_reg (n_tx s)) ;;
  send_loop SEND_FUEL reg 0 (JUNK E).

(** ** configuration *)

(** io_can_config.c:1209-1251 can_config_sync_off *)
Definition sync_off (pos : nat) : M unit :=
  m <- gets (fun s => modat s pos) ;;
  modify (upd_mod pos (fun m => set_m_ntx_s m 0)) ;;;
  for_do (m_ntx m) 0 (fun i =>
    tx_data_off pos i ;;;
    modify (upd_mod pos (upd_txo i (fun o => set_t_conv_s (set_t_dlc_s o 0) (Some tx_dummy))))) ;;;
  modify (upd_mod pos (fun m => set_m_nrx_s m 0)) ;;;
  for_do (m_nrx m) 0 (fun i =>
    modify (upd_mod pos (upd_rx i (fun o => set_r_conv_s (set_r_dlc_s o 0) (Some rx_dummy))))) ;;;
  for_do (m_nrx m) 0 (fun i =>
    o <- gets (fun s => rxat (modat s pos) i) ;;
    call_rx (r_conv o) (repeat 0 8) (r_addr o) (r_dlc o) ;;; ret tt).

(** io_can_config.c:1258-1294 can_config_sync_on *)
Definition sync_on (pos : nat) : M unit :=
  m <- gets (fun s => modat s pos) ;;
  modify (upd_mod pos (fun m => set_m_ntx_s m (m_ntx m))) ;;;
  for_do (m_ntx m) 0 (fun i =>
    tx_data_on pos i ;;;
    modify (upd_mod pos (upd_txo i (fun o => set_t_conv_s (set_t_dlc_s o (t_dlc o)) (t_conv o))))) ;;;
  modify (upd_mod pos (fun m => set_m_nrx_s m (m_nrx m))) ;;;
  for_do (m_nrx m) 0 (fun i =>
    modify (upd_mod pos (upd_rx i (fun o => set_r_conv_s (set_r_dlc_s o (r_dlc o)) (r_conv o))))).

(** io_can_config.c:1715-1745 can_config_set_module_silent_awake *)
Definition set_silent_awake (pos : nat) (state : N) : M N :=
  if (pos <? MAXM E)%nat then
    modify (upd_cfg (fun k => set_k_silent k (set_nth (k_silent k) pos state))) ;;;
    cb <- gets (fun s => k_silcb (n_cfg s)) ;;
    m <- gets (fun s => modat s pos) ;;
    emit_cb cb (fun c => EvSilent c pos (m_type m) (m_nr m) state) ;;;
    if state =? SILENT then sync_off pos ;;; ret ERR_OK
    else if state =? AWAKE then sync_on pos ;;; ret ERR_OK
    else ret E_SILENT_STATE
  else ret E_WRONG_TABLE_POS.

(** io_can_config.c:2503-2519 get_table_pos_from_type_and_actual_module_number; None = MAX *)
Fixpoint find_type_nr (tab : list modl) (type : list byte) (nr : N) (i : nat) : option nat :=
  match tab with
  | [] => None
  | m :: t => if strn_eq 5 type (m_type m) && (m_nr m =? nr) then Some i else find_type_nr t type nr (S i)
  end.
(** io_can_config.c:1652-1667 can_config_module_type_valid *)
Fixpoint find_type (tab : list modl) (type : list byte) (i : nat) : option nat :=
  match tab with
  | [] => None
  | m :: t => if strn_eq 5 (m_type m) type then Some i else find_type t type (S i)
  end.

(** io_can_config.c:1958-1975 li_can_slv_config_set_module_silent_awake_from_type_and_nr *)
Definition set_silent_awake_type_nr (type : list byte) (nr state : N) : M N :=
  tab <- gets tab_of ;;
  match find_type_nr tab type nr 0 with
  | Some pos => set_silent_awake pos state
  | None => ret E_MODULE_NOT_FOUND
  end.

(** io_can_config.c:1145-1201 can_config_set_critical (lcsa_set_module_critical) and 1083-1138
    can_config_set_active.  LI_CAN_SLV_SYNC_CRITICAL_CLEAR_OBJ is not defined: the code under it calls a function
    (can_msg_obj_init) that does not exist in the repository. *)
Definition set_active_critical (type : list byte) (on : bool) : M N :=
  tab <- gets tab_of ;;
  match find_type tab type 0 with
  | None => ret E_TYPE_NOT_FOUND
  | Some pos => (if on then sync_on pos else sync_off pos) ;;; ret ERR_OK
  end.

(** io_can_config.c:2363-2372 and 1864-1873: the acceptance mask of the shared objects.
    [n] is the number of table entries taken into account *)
Definition idbits (nr : N) : N := N.land 508 (u32 ((nr + 4294967295) * 4)).
Definition mask_of (nrs : list N) : N :=
  let idor := fold_left (fun a nr => N.lor a (idbits nr)) nrs 0 in
  let idand := fold_left (fun a nr => N.land a (idbits nr)) nrs 0 in
  N.land 508 (N.lor idand (N.lxor idor 65535)).

(** io_can_config.c:2477-2495 can_config_get_async_ctrl_rx_obj *)
Definition get_async_ctrl_obj (pos : nat) : M (option nat * N) :=
  if (MAXM E <=? pos)%nat then ret (None, E_WRONG_TABLE_POS)
  else
    mo <- next_free ;;
    match mo with
    | None => ret (None, E_NO_MSG_OBJ)
    | Some mo => modify (upd_cfg (fun k => set_k_actrl k (set_nth (k_actrl k) pos mo))) ;;; ret (Some mo, ERR_OK)
    end.

(** io_can_config.c:2373-2394 and 1875-1916: asynchronous and system message objects,
    then the silent/awake routine *)
Definition define_shared (ctrlpos pos : nat) (nr mask : N) : M N :=
  (if ASY E then
     (r <- get_async_ctrl_obj ctrlpos ;;
      match r with
      | (Some mo, e) => define_obj mo (can_ident BASE_CTRL_RX nr 0) MASK_ONE 8 true SvAsyncCtrl false
      | (None, e) => ret e
      end) >>>
     define_obj MO_ASYNC_DATA BASE_DATA_RX (N.lor MASK_CLASS mask) 8 true SvAsync false
   else ret ERR_OK) >>>
  define_obj MO_SYS1 ID_SYS (N.lor MASK_CLASS mask) 8 true SvRx false >>>
  (if SYS2 E then define_obj MO_SYS2 ID_SYS (N.lor MASK_CLASS mask) 8 true SvRx false else ret ERR_OK) >>>
  (st <- gets (fun s => silat s pos) ;; set_silent_awake pos st).

(** io_can_config.c:2173-2400 can_config_set_module.  A descriptor with more than 4 objects would make
    the loops run over the arrays of the struct.  rx_obj_sync is set together with tx_obj_sync here
    (lines 2210 and 2293); nothing between the two lines reads it.
    An empty type would leave the slot unused while the module counter grows past the table. *)
Definition desc_ok (d : modl) : bool :=
  (m_nrx d <=? NOBJ)%nat && (m_ntx d <=? NOBJ)%nat && (length (m_rx d) =? NOBJ)%nat && (length (m_tx d) =? NOBJ)%nat &&
  (length (m_type d) =? 5)%nat && negb (hd 0 (m_type d) =? 0).
Definition limit_nr (pos : nat) (nr : N) : N :=
  if (NR_MAX <? nr) || (nr <? NR_MIN) then NR_DEF + N.of_nat pos else nr.
Fixpoint set_addrs_rx (l : list rxo) (a : list nat) : list rxo :=
  match l, a with o :: l', x :: a' => set_r_addr o x :: set_addrs_rx l' a' | _, _ => l end.
Fixpoint set_addrs_tx (l : list txo) (a : list nat) : list txo :=
  match l, a with o :: l', x :: a' => set_t_addr o x :: set_addrs_tx l' a' | _, _ => l end.
(** lines 2295-2320: one receive object of a module *)
Definition rx_slot (pos : nat) (nr : N) (i : nat) : M N :=
  modify (upd_mod pos (upd_rx i (fun o => set_r_dlc_s o (r_dlc o)))) ;;;
  mo <- next_free ;;
  match mo with
  | None => ret E_NO_MSG_OBJ
  | Some mo =>
      modify (upd_mod pos (upd_rx i (fun o => set_r_mo o mo))) ;;;
      dlc <- gets (fun s => r_dlc (rxat (modat s pos) i)) ;;
      define_obj mo (can_ident BASE_RX nr i) MASK_ONE dlc true SvRx true >>>
      rx_data_cnfg mo pos
  end.
Definition set_module (pos : nat) (d : modl) (nr0 : N) (rxs txs : list nat) : M N :=
  guard (desc_ok d) ;;;
  let nr := limit_nr pos nr0 in
  modify (upd_mod pos (fun _ =>
    Modl (m_type d) nr (m_nrx d) (m_nrx d) (m_ntx d) (m_ntx d)
         (set_addrs_rx (m_rx d) rxs) (set_addrs_tx (m_tx d) txs))) ;;;
  for_err (m_ntx d) 0 (fun i =>
    modify (upd_mod pos (upd_txo i (fun o => set_t_dlc_s o (t_dlc o)))) ;;;
    tx_data_cnfg pos i nr) >>>
  for_err (m_nrx d) 0 (rx_slot pos nr) >>>
  (tab <- gets tab_of ;;
   n <- gets nmod ;;
   e <- define_shared n pos nr (mask_of (map m_nr (firstn (S pos) tab))) ;;
   modify (upd_cfg (fun k => set_k_nmod k (S (k_nmod k)))) ;;;
   ret e).

(** io_can_config.c:960-1027 can_config_add_module *)
Fixpoint first_unused (tab : list modl) (i : nat) : option nat :=
  match tab with
  | [] => None
  | m :: t => if hd 0 (m_type m) =? 0 then Some i else first_unused t (S i)
  end.
Definition add_module (d : modl) (nr : N) (rxs txs : list nat) : M N :=
  tab <- gets tab_of ;;
  match first_unused tab 0 with
  | None => ret E_MAX_MODULES
  | Some i =>
      if existsb (fun m => m_nr m =? nr) (firstn i tab) then
        e <- set_module i d (NR_DEF + N.of_nat i) rxs txs ;;
        report_if e ;;; ret E_REDECLARED_NR
      else
        e <- set_module i d nr rxs txs ;;
        report_if e ;;; ret ERR_OK
  end.

(** io_can_config.c:1781-1926 li_can_slv_config_change_module_nr_and_identifiers.  Not found: the
    position is MAX and line 1797 writes behind the table. *)
Definition change_nr_ids (type : list byte) (new actual : N) : M N :=
  tab <- gets tab_of ;;
  match find_type_nr tab type actual 0 with
  | None => undef
  | Some pos =>
      modify (upd_mod pos (fun m => set_m_nr m new)) ;;;
      m <- gets (fun s => modat s pos) ;;
      for_err (m_ntx m) 0 (fun i => tx_data_cnfg pos i new) >>>
      for_err (m_nrx m) 0 (fun i =>
        let o := rxat m i in
        define_obj (r_mo o) (can_ident BASE_RX new i) MASK_ONE (r_dlc o) true SvRx true) >>>
      (tab' <- gets tab_of ;;
       n <- gets nmod ;;
       define_shared pos pos new (mask_of (map m_nr (firstn n tab'))))
  end.

(** io_can_config.c:1402-1448 can_config_change_module_nr *)
Definition change_nr (pos : nat) (new : N) : M N :=
  v <- gets (fun s => k_voter (n_cfg s)) ;;
  m <- gets (fun s => modat s pos) ;;
  match v with
  | None => change_nr_ids (m_type m) new (m_nr m)
  | Some f =>
      let st := f (m_type m) new (m_nr m) in
      if st =? 0 then change_nr_ids (m_type m) new (m_nr m) >>> set_silent_awake pos AWAKE
      else if st =? 3 then change_nr_ids (m_type m) new (m_nr m) >>> set_silent_awake pos SILENT
      else ret E_INVALID_MODULE_NR
  end.

(** io_can_config.c:1988-2068 can_config_change_module_type *)
Definition retype_rx (o : rxo) (d : rxo) (addr : nat) : rxo :=
  RxO addr (r_dlc d) (r_conv d) (r_dlc d) (r_conv_s d) (r_mo o).
Definition retype_tx (d : txo) (addr : nat) : txo :=
  TxO addr (t_dlc d) (t_conv d) (t_dlc d) (t_conv_s d).
Definition retype (c : chent) (m : modl) : modl :=
  let d := c_desc c in
  Modl (m_type d) (m_nr m) (m_nrx d) (m_nrx_s d) (m_ntx d) (m_ntx_s d)
       (map (fun i => retype_rx (rxat m i) (rxat d i) (nth i (c_rx c) 0%nat)) (seq 0 NOBJ))
       (map (fun i => retype_tx (txat d i) (nth i (c_tx c) 0%nat)) (seq 0 NOBJ)).
Definition change_type (pos : nat) (type : list byte) : M N :=
  c <- gets (fun s => nth pos (k_chg (n_cfg s)) None) ;;
  match c with
  | None => ret E_TYPE_CHANGE
  | Some c =>
      if strn_eq 4 (m_type (c_desc c)) type then
        guard (desc_ok (c_desc c) && (m_nrx_s (c_desc c) <=? NOBJ)%nat && (m_ntx_s (c_desc c) <=? NOBJ)%nat) ;;;
        modify (upd_mod pos (retype c)) ;;;
        modify (upd_tx (fun x => set_x_end (set_x_reg x 0) 0)) ;;;
        n <- gets nmod ;;
        for_do n 0 (fun j =>
          st <- gets (fun s => silat s j) ;;
          if st =? AWAKE then
            m <- gets (fun s => modat s j) ;;
            for_do (m_ntx m) 0 (fun i => tx_data_cnfg j i (m_nr m) ;;; ret tt)
          else ret tt) ;;;
        emit_cb (c_cb c) (fun cb => EvType cb type) ;;;
        ret ERR_OK
      else ret ERR_OK
  end.

(** io_can_config.c:2087-2108 can_config_change_module_type_add *)
Definition change_type_add (type : list byte) (d : modl) (rxs txs : list nat) (cb : option N) : M N :=
  tab <- gets tab_of ;;
  match find_type tab type 0 with
  | None => ret E_TYPE_NOT_FOUND
  | Some pos =>
      modify (upd_cfg (fun k => set_k_chg k (set_nth (k_chg k) pos (Some (ChEnt d rxs txs cb))))) ;;; ret ERR_OK
  end.

(** ** baud rate and node mode *)

(** canpie_adapter/io_can_main_hw.c:296-332 can_main_hw_set_baudrate *)
Definition hw_set_baudrate (rate : N) : M N :=
  mode <- gets (fun s => h_mode (n_hw s)) ;;
  if (mode =? MODE_INIT) || (mode =? MODE_STOPPED) then
    if (rate =? 125) || (rate =? 250) || (rate =? 500) || (rate =? 1000) then
      modify (upd_hw (fun h => set_h_rate h (Some rate))) ;;; emit (EvRate rate) ;;; ret ERR_OK
    else ret E_INVALID_BAUDRATE
  else ret E_INVALID_BAUDRATE.

(** io_can_config.c:819-844 can_config_set_baudrate: all table entries are visited, the last match decides *)
Fixpoint set_baudrate_loop (entries : list N) (rate err : N) : M N :=
  match entries with
  | [] => ret err
  | r :: rest =>
      if rate =? r then
        modify (upd_cfg (fun k => set_k_bdr k r)) ;;;
        e <- hw_set_baudrate r ;;
        (if e =? ERR_OK then modify (upd_hw (fun h => set_h_xrate h (Some rate))) else ret tt) ;;;
        set_baudrate_loop rest rate e
      else set_baudrate_loop rest rate err
  end.
Definition set_baudrate (rate : N) : M N :=
  tab <- gets (fun s => k_bdrtab (n_cfg s)) ;; set_baudrate_loop tab rate ERR_OK.

(** io_can.c:330-341 li_can_slv_set_node_mode, io_can_main.c:546-565 can_main_enable,
    canpie_adapter/io_can_main_hw.c:173-209 (LISTEN_ONLY disables in a build without RECONNECT) *)
Definition set_node_mode (mode : N) : M N :=
  modify (upd_hw (fun h => set_h_mode h mode)) ;;;
  ok <- ask ;;
  if ok then modify (upd_hw (fun h => set_h_drv h (if mode =? MODE_OPERATIONAL then 1 else 0))) ;;; ret ERR_OK
  else ret E_NOT_IMPLEMENTED.

(** ** synchronous process *)

(** io_can_sync.c:490-584 can_sync_rx_data_main *)
Definition rx_nr (id : N) : N := u16 (((id + 262144 - 512) / 4) + 1).
Definition rx_data_main (pos : nat) (id dlc : N) (can : list byte) : M N :=
  let obj := N.to_nat (N.land id 3) in
  m <- gets (fun s => modat s pos) ;;
  let o := rxat m obj in
  if CHK E && negb (rx_nr id =? m_nr m) then ret E_RX_WRONG_NR
  else if CHK E && negb (dlc =? r_dlc_s o) then ret E_RX_WRONG_DLC
  else
    e <- call_rx (r_conv_s o) can (r_addr o) dlc ;;
    modify (upd_sync (fun y => set_y_cnt y (set2 (y_cnt y) pos obj (u16 (get2 (y_cnt y) pos obj + 1))))) ;;;
    ret e.

(** io_can_sync.c:459-475 can_sync_rx_process_main (ticks and milliseconds are the same unit in the port) *)
Definition rx_process_main (dlc now : N) : M unit :=
  modify (upd_sync (fun y =>
    set_y_pr_flag (set_y_pr_dlc (set_y_pr_cnt (set_y_ts (set_y_per y (u32_sub now (y_ts y))) now)
      (u16 (y_pr_cnt y + 1))) dlc) true)).

(** io_can_sync.c:1312-1340 li_can_slv_sync_clear_process_image *)
Definition clear_row (n : nat) (l : list N) : list N := repeat 0 (min n (length l)) ++ skipn n l.
Fixpoint clear_rows (tab : list modl) (l : list (list N)) : list (list N) :=
  match tab, l with m :: t, r :: l' => clear_row (m_nrx_s m) r :: clear_rows t l' | _, _ => l end.
Definition clear_image : M unit :=
  tab <- gets tab_of ;;
  modify (upd_sync (fun y => set_y_cnt (set_y_pr_flag (set_y_pr_cnt y 0) false) (clear_rows tab (y_cnt y)))).

(** io_can_sync.c:1348-1391 li_can_slv_sync_check_process_image_module: the image of one module is
    valid iff every counter below rx_obj_sync is 1 *)
Definition module_valid (s : node) (pos : nat) : bool :=
  forallb (fun j => get2 (y_cnt (n_sync s)) pos j =? 1) (seq 0 (m_nrx_s (modat s pos))).
Definition check_module (pos : nat) (now : N) : M bool :=
  v <- gets (fun s => module_valid s pos) ;;
  (if v then modify (upd_sync (fun y => set_y_tvm y (set_nth (y_tvm y) pos now))) else ret tt) ;;;
  ret v.

(** io_can_sync.c:1002-1026: evaluation of the modules [first .. first+n), returns "all valid" *)
Fixpoint check_modules (n first : nat) (now : N) : M bool :=
  match n with
  | O => ret true
  | S n' =>
      v <- check_module first now ;;
      modify (upd_sync (fun y => set_y_img y (set_nth (y_img y) first v))) ;;;
      cb <- gets (fun s => nth first (if v then y_cbv (n_sync s) else y_cbn (n_sync s)) None) ;;
      emit (EvVerdict first v cb now) ;;;
      r <- check_modules n' (S first) now ;;
      ret (v && r)
  end.

(** io_can_sync.c:959-1060 li_can_slv_sync_check_process_image *)
Definition check_image (now : N) : M unit :=
  y <- gets n_sync ;;
  if y_pr_flag y then
    (if 1 <? y_pr_dlc y then ret tt
     else if negb (y_pr_cnt y =? 1) then ret tt
     else
       n <- gets nmod ;;
       v <- check_modules n 0 now ;;
       if v then
         modify (upd_sync (fun y => set_y_tv y now)) ;;;
         emit (EvImage (y_cbp y) now)
       else ret tt) ;;;
    clear_image
  else ret tt.

(** io_can_sync.c:1284-1304 li_can_slv_sync_process_request_rx *)
Definition process_request_rx : M unit :=
  y <- gets n_sync ;;
  (if y_first y then ret tt
   else modify (upd_sync (fun y => set_y_first y true)) ;;; emit (EvFirstReq (y_cbf y))) ;;;
  n <- gets nmod ;;
  for_do n 0 (fun i =>
    cb <- gets (fun s => nth i (y_cbr (n_sync s)) None) ;; emit_cb cb (fun c => EvProcReq i c)).

(** io_can_sync.c:1233-1247 li_can_slv_sync_set_process_cycle_time *)
Definition set_cycle_time (t : N) : M N :=
  if t <=? PMAX E then modify (upd_sync (fun y => set_y_cyc y t)) ;;; ret ERR_OK
  else modify (upd_sync (fun y => set_y_cyc y (PMAX E))) ;;; ret E_CONFIG_INVALID.

(** io_can_sync.c:1250-1269 li_can_slv_sync_trigger_process_periode *)
Definition trigger_period (now : N) : M unit :=
  modify (upd_sync (fun y =>
    let lim := u16 (PMAX E) in
    let d := u32_sub now (y_ts y) in
    let d := if lim <? d then lim else d in
    if y_per y <? d then set_y_per y d else y)).

(** io_can_sync.c:1072-1080 li_can_slv_sync_get_process_periode *)
Definition get_period : M N :=
  p <- gets (fun s => y_per (n_sync s)) ;;
  if PMAX E <? p then modify (upd_sync (fun y => set_y_per y (PMAX E))) ;;; ret (PMAX E) else ret p.

(** io_can_config.c:1678-1694 can_config_module_valid and io_can_sync.c:1172-1232: callbacks of a module *)
Inductive cbkind := CbValid | CbNotValid | CbRequest.
Definition set_image_cb (k : cbkind) (type : list byte) (nr : N) (cb : option N) : M N :=
  tab <- gets tab_of ;;
  match find_type_nr tab type nr 0 with
  | None => ret E_MODULE_NOT_FOUND
  | Some pos =>
      modify (upd_sync (fun y =>
        match k with
        | CbValid => set_y_cbv y (set_nth (y_cbv y) pos cb)
        | CbNotValid => set_y_cbn y (set_nth (y_cbn y) pos cb)
        | CbRequest => set_y_cbr y (set_nth (y_cbr y) pos cb)
        end)) ;;; ret ERR_OK
  end.

(** ** system messages *)

(** io_can_sys.c:497-533 can_sys_send_error_full *)
Definition error_frame (e : entry) : list byte :=
  [3; u8 (N.shiftr (e_code e) 24); u8 (N.shiftr (e_code e) 16); u8 (N.shiftr (e_code e) 8); u8 (e_code e);
   u8 (e_info e); u8 (e_prio e); u8 (e_group e)].
Definition send_error (e : entry) : M unit :=
  main <- gets nr_main ;;
  let nr := if (NR_MAX <? e_module e) || (e_module e <? NR_MIN) then main else e_module e in
  sys_tx nr (error_frame e).

(** can_error_sys_error_get_full as used by the senders: io_can_sync_handler.c:197-204, io_can_sys.c:313-321 *)
Definition get_error : M (option entry) := fun s =>
  match es_get (n_err s) with
  | None => Undef
  | Some (st, (e, r)) => Ret (if e =? ERR_OK then r else None, set_n_err s st)
  end.
Definition err_count (s : node) : nat := es_count (n_err s).
Definition send_one_error : M unit :=
  e <- get_error ;; match e with Some x => send_error x | None => ret tt end.
(** io_can_sys.c:313-321: while (count != 0) *)
Fixpoint drain_errors (fuel : nat) : M unit :=
  match fuel with
  | O => c <- gets err_count ;; if (c =? 0)%nat then ret tt else (fun _ => Hang)
  | S f => c <- gets err_count ;; if (c =? 0)%nat then ret tt else (send_one_error ;;; drain_errors f)
  end.

(** io_can_sys.c:605-660 can_sys_status_ackn, can_sys_status_ackn_send *)
Definition status_frame (type : list byte) (serial : N) : list byte :=
  4 :: strn_cpy 4 type ++ [u8 (N.shiftr serial 16); u8 (N.shiftr serial 8); u8 serial].
Definition status_ackn (pos : nat) : M N :=
  mode <- gets (fun s => h_mode (n_hw s)) ;;
  if mode =? MODE_LISTEN_ONLY then ret ERR_OK
  else if (MAXM E <=? pos)%nat then ret E_WRONG_TABLE_POS
  else
    m <- gets (fun s => modat s pos) ;;
    sys_tx (m_nr m) (status_frame (m_type m) (SERIAL E)) ;;; ret ERR_OK.

(** io_can_sys.c:708-798 can_sys_version_ackn and its two frames *)
Definition version_frame1 : list byte :=
  [5; u8 (BOOTMAJ E); u8 (N.shiftr (N.land 65280 (u16 (BOOTMIN E))) 8); u8 (BOOTMIN E); 0;
   u8 (SWMAJ E); u8 (N.shiftr (N.land 65280 (u16 (SWMIN E))) 8); u8 (SWMIN E)].
Definition version_frame2 : list byte :=
  [6; u8 (N.shiftr (IDENT E) 24); u8 (N.shiftr (IDENT E) 16); u8 (N.shiftr (IDENT E) 8); u8 (IDENT E);
   u8 (N.shiftr (CHANGEIDX E) 16); u8 (N.shiftr (CHANGEIDX E) 8); u8 (CHANGEIDX E)].
Definition version_ackn (pos : nat) : M N :=
  mode <- gets (fun s => h_mode (n_hw s)) ;;
  if mode =? MODE_LISTEN_ONLY then ret ERR_OK
  else if (MAXM E <=? pos)%nat then ret E_WRONG_TABLE_POS
  else
    m <- gets (fun s => modat s pos) ;;
    sys_tx (m_nr m) version_frame1 ;;; sys_tx (m_nr m) version_frame2 ;;; ret ERR_OK.

Definition b (src : list byte) (i : nat) : N := nth i src 0.
(** io_can_sys.c:859-866 check_if_serial_number_is_valid_from_can_data, and 815 *)
Definition serial_of (src : list byte) : N :=
  N.lor (N.lor (N.land 16711680 (u32 (N.shiftl (b src 5) 16))) (N.land 65280 (u32 (N.shiftl (b src 6) 8))))
        (N.land 255 (b src 7)).

(** io_can_sys.c:806-848 can_sys_set_silent_awake *)
Definition sys_silent_awake (src : list byte) (nr state : N) : M N :=
  if SERIAL E =? serial_of src then
    tab <- gets tab_of ;;
    match find_nr tab nr 0 with
    | None => ret ERR_OK
    | Some pos =>
        m <- gets (fun s => modat s pos) ;;
        if strn_eq 4 (m_type m) (tl src) then set_silent_awake pos state else ret ERR_OK
    end
  else ret ERR_OK.

(** (int8_t) of a byte *)
Definition int8 (x : N) : Z := if x <? 128 then Z.of_N x else (Z.of_N x - 256)%Z.

(** io_can_sys.c:181-494 can_sys_msg_rx *)
Inductive cmd := CStatus | CBaud | CErrRx | CVersion | CTime | CProcess | CHwVersion | CRxRate
  | CNumber | CSilent | CAwake | CShow | CReset | CType | CUnknown.
(** include/li_can_slv/sys/io_can_sys.h CAN_SYS_M2S_* *)
Definition cmd_of (x : N) : cmd :=
  if x =? 1 then CStatus else if x =? 2 then CBaud else if x =? 3 then CErrRx
  else if x =? 5 then CVersion else if x =? 7 then CTime else if x =? 8 then CProcess
  else if x =? 10 then CHwVersion else if x =? 11 then CRxRate else if x =? 32 then CNumber
  else if x =? 33 then CSilent else if x =? 34 then CAwake else if x =? 35 then CShow
  else if x =? 48 then CReset else if x =? 49 then CType else CUnknown.

Definition sys_cmd (bc : bool) (pos : nat) (nr : N) (src : list byte) : M N :=
  n <- gets nmod ;;
  match cmd_of (b src 0) with
  | CStatus =>
      z <- gets n_sys ;;
      (if z_first z then ret tt
       else modify (upd_sys (fun z => set_z_first z true)) ;;; emit (EvFirstStatus (z_cbs z))) ;;;
      (if bc then for_err n 0 status_ackn else status_ackn pos) >>>
      (c <- gets err_count ;; drain_errors c ;;; ret ERR_OK)
  | CBaud =>
      if bc then
        mode <- gets (fun s => h_mode (n_hw s)) ;;
        set_node_mode MODE_STOPPED >>> set_baudrate (u16 (N.shiftl (b src 1) 8 + b src 2)) >>> set_node_mode mode
      else ret E_NO_DIRECT
  | CErrRx | CHwVersion | CRxRate | CShow => ret E_NOT_IMPLEMENTED
  | CVersion => if bc then for_err n 0 version_ackn else version_ackn pos
  | CTime =>
      z <- gets n_sys ;;
      emit_cb (z_cbt z) (fun c =>
        EvTime c
          (N.lor (N.lor (N.lor (N.land 4278190080 (u32 (N.shiftl (b src 2) 24)))
                               (N.land 16711680 (u32 (N.shiftl (b src 3) 16))))
                        (N.land 65280 (u32 (N.shiftl (b src 4) 8))))
                 (N.land 255 (b src 5)))
          (int8 (b src 6)) (negb (b src 7 =? 0))) ;;;
      ret ERR_OK
  | CProcess => set_cycle_time (b src 2)
  | CNumber =>
      if bc then ret E_NO_BROADCAST
      else if SERIAL E =? serial_of src then change_nr pos (b src 2) else ret ERR_OK
  | CSilent => if bc then ret E_NO_BROADCAST else sys_silent_awake src nr SILENT
  | CAwake => if bc then ret E_NO_BROADCAST else sys_silent_awake src nr AWAKE
  | CReset => z <- gets n_sys ;; emit_cb (z_cbr z) (fun c => EvReset c (b src 1)) ;;; ret ERR_OK
  | CType =>
      if bc then ret E_NO_BROADCAST
      else if SERIAL E =? serial_of src then change_type pos (tl src) ;;; ret ERR_OK else ret ERR_OK
  | CUnknown => ret E_SYS_UNKNOWN
  end.

Definition sys_msg_rx (nr dlc : N) (src : list byte) : M N :=
  if negb (dlc =? 8) then ret E_SYS_DLC
  else if nr =? NR_BROADCAST then
    n <- gets nmod ;;
    if (n =? 0)%nat then ret E_MODULE_NOT_FOUND else sys_cmd true 0 nr src
  else
    tab <- gets tab_of ;;
    match find_nr tab nr 0 with
    | None => ret ERR_OK
    | Some pos => sys_cmd false pos nr src
    end.

(** ** receive handler *)

(** include/li_can_slv/arch/io_can_main_hw_inline.h:71-87 can_main_synchron_rx *)
Fixpoint find_slot (tab : list (nat * nat)) (mo : nat) : option nat :=
  match tab with
  | [] => None
  | (mo', pos) :: t => if (mo' =? mo)%nat then Some pos else find_slot t mo
  end.

(** io_can_sync_handler.c:148-187 branch "synchrony data received" *)
Definition on_data (mo : nat) (id dlc : N) (data : list byte) : M unit :=
  rx <- gets (fun s => h_rxtab (n_hw s)) ;;
  match find_slot rx mo with
  | None => ret tt
  | Some pos => rx_data_main pos id dlc data ;;; ret tt
  end.
(** io_can_sync_handler.c:190-231 branch "process request received" *)
Definition on_process (dlc now : N) : M unit :=
  process_request_rx ;;;
  check_image now ;;;
  send_process_data ;;;
  rx_process_main dlc now ;;;
  c <- gets err_count ;;
  if (0 <? c)%nat then send_one_error else ret tt.
(** io_can_sync_handler.c:233-270 branch "system message received" *)
Definition on_sys (id dlc : N) (data : list byte) : M unit :=
  e <- sys_msg_rx (N.land (N.shiftr id 2) 127 + 1) dlc data ;;
  report_if e.

Definition is_sync_mo (mo : nat) (s : node) : bool := negb (N.land (bit mo) (h_mask_rx (n_hw s)) =? 0).

(** io_can_sync_handler.c:102-288 can_sync_handler_rx *)
Definition frame_rx (mo : nat) (id dlc : N) (data : list byte) (now : N) : M unit :=
  sy <- gets (is_sync_mo mo) ;;
  (if sy then on_data mo id dlc data else ret tt) ;;;
  (if (mo =? MO_PROCESS)%nat then on_process dlc now else ret tt) ;;;
  (if (mo =? MO_SYS1)%nat || (SYS2 E && (mo =? MO_SYS2)%nat) then on_sys id dlc data else ret tt).

(** ** initialisation: io_can.c:97-277 li_can_slv_init *)
Definition def_nr (i : nat) : N := N.min (NR_DEF + N.of_nat i) 127.   (* li_can_slv_config_defines.h:156-163 *)
Definition RATES : list N := [250; 125; 500; 1000].                  (* io_can_main_hw.c:70-76 *)
Definition static_cfg : cfgst :=
  CfgSt (map (fun i => slot0 (def_nr i)) (seq 0 (MAXM E))) (repeat AWAKE (MAXM E)) 0 0 RATES 0
        (repeat 0%nat (MAXM E)) (repeat None (MAXM E)) None None.
Definition zeros2 : list (list N) := repeat (repeat 0 NOBJ) (MAXM E).
Definition static_tx : txst := TxSt 0 0 zeros2 zeros2.
Definition static_hw : hwst :=
  HwSt (repeat false (NMSG E)) (repeat None (NMSG E)) 0 0 0 [] MODE_INIT 0 None None.
Definition static_sync : syncst :=
  SyncSt 0 false 0 zeros2 0 0 0 0 (repeat 0 (MAXM E)) (repeat false (MAXM E))
    (repeat None (MAXM E)) (repeat None (MAXM E)) (repeat None (MAXM E)) None None false.
Definition static_sys : sysst := SysSt false None None None.
Definition static_node (mem : list (list byte)) (st : errstore) (orc : list bool) : node :=
  Node static_cfg static_tx static_hw static_sync static_sys st mem orc [].

(** io_can_config.c:747-776 can_config_init *)
Definition config_init : M N :=
  modify (upd_cfg (fun k => set_k_tab (set_k_nmod k 0)
    (map (fun m => set_m_type m (set_nth (m_type m) 0 0)) (k_tab k)))) ;;; ret ERR_OK.
(** io_can_main_hw.c:131-137 for all objects; releasing a buffer removes its filter *)
Definition msg_objs_init : M N :=
  modify (upd_hw (fun h => set_h_filt (set_h_used h (repeat false (NMSG E))) (repeat None (NMSG E)))) ;;; ret ERR_OK.
(** io_can_sys.c:139-147 can_sys_init; io_can_sync.c:405-448 can_sync_init *)
Definition sys_init : M N :=
  modify (upd_sys (fun z => set_z_cbs (set_z_first z false) None)) ;;; ret ERR_OK.
Definition sync_init : M N :=
  modify (upd_sync (fun y =>
    set_y_cbr (set_y_cbn (set_y_cbv (set_y_cyc (set_y_per y (PMAX E)) (PMAX E))
      (repeat None (MAXM E))) (repeat None (MAXM E))) (repeat None (MAXM E)))) ;;; ret ERR_OK.
Definition can_init (rate : N) : M N :=
  config_init >>>
  (modify (upd_cfg (fun k => set_k_bdrtab (set_k_bdrstart k rate) RATES)) ;;; ret ERR_OK) >>>
  msg_objs_init >>>
  define_obj MO_PROCESS ID_PROCESS MASK_ONE 1 true SvRx false >>>
  define_obj MO_SYS1 ID_SYS MASK_ONE 8 true SvRx false >>>
  (if SYS2 E then define_obj MO_SYS2 ID_SYS MASK_ONE 8 true SvRx false else ret ERR_OK) >>>
  (if ASY E then define_obj MO_ASYNC_DATA BASE_CTRL_RX MASK_ONE 8 true SvAsync false else ret ERR_OK) >>>
  define_obj MO_TX 0 MASK_ONE 0 false SvTx true >>>
  sys_init >>>
  sync_init.

(** ** what the environment and the application can do *)
Inductive op :=
| OpFrame (mo : nat) (id dlc : N) (data : list byte) (now : N)  (* a frame accepted by message object mo *)
| OpAdd (d : modl) (nr : N) (rxs txs : list nat)
| OpSilent (type : list byte) (nr state : N)      (* lcsa_set_module_silent_awake_from_type_and_nr *)
| OpSetNr (type : list byte) (new actual : N)     (* li_can_slv_config_change_module_nr_and_identifiers *)
| OpTypeAdd (type : list byte) (d : modl) (rxs txs : list nat) (cb : option N)
| OpVoter (v : option voter)
| OpSilentCb (cb : option N)
| OpImageCb (k : cbkind) (type : list byte) (nr : N) (cb : option N)
| OpProcessCb (cb : option N)                     (* can_sync_set_pr_call_fnc *)
| OpFirstReqCb (cb : option N)                    (* can_sync_set_first_process_request_call_fnc *)
| OpSysCb (status time reset : option N)          (* the three callbacks of io_can_sys.c *)
| OpError (err prio nr : N)                       (* the application reports an error *)
| OpProcess (now : N)                             (* li_can_slv_process *)
| OpPeriod                                        (* li_can_slv_sync_get_process_periode *)
| OpCycle (t : N)                                 (* li_can_slv_sync_set_process_cycle_time *)
| OpMode (mode : N)
| OpBaud (rate : N)
| OpWrite (addr : nat) (data : list byte)         (* the application writes one of its objects *)
| OpTakePart (type : list byte) (on : bool).      (* can_config_set_active, lcsa_set_module_critical *)

Definition ignore {A} (m : M A) : M unit := m ;;; ret tt.
Definition step (o : op) : M unit :=
  match o with
  | OpFrame mo id dlc data now => frame_rx mo id dlc data now
  | OpAdd d nr rxs txs => ignore (add_module d nr rxs txs)
  | OpSilent type nr st => ignore (set_silent_awake_type_nr type nr st)
  | OpSetNr type new actual => ignore (change_nr_ids type new actual)
  | OpTypeAdd type d rxs txs cb => ignore (change_type_add type d rxs txs cb)
  | OpVoter v => modify (upd_cfg (fun k => set_k_voter k v))
  | OpSilentCb cb => modify (upd_cfg (fun k => set_k_silcb k cb))
  | OpImageCb k type nr cb => ignore (set_image_cb k type nr cb)
  | OpProcessCb cb => modify (upd_sync (fun y => set_y_cbp y cb))
  | OpFirstReqCb cb => modify (upd_sync (fun y => set_y_cbf y cb))
  | OpSysCb a t r => modify (upd_sys (fun z => set_z_cbr (set_z_cbt (set_z_cbs z a) t) r))
  | OpError e p nr => report e p nr
  | OpProcess now => trigger_period now
  | OpPeriod => ignore get_period
  | OpCycle t => ignore (set_cycle_time t)
  | OpMode m => ignore (set_node_mode m)
  | OpBaud r => ignore (set_baudrate r)
  | OpWrite addr data => modify (fun s => set_n_mem s (set_nth (n_mem s) addr data))
  | OpTakePart type on => ignore (set_active_critical type on)
  end.

Fixpoint run (ops : list op) : M unit :=
  match ops with
  | [] => ret tt
  | o :: rest => step o ;;; run rest
  end.

End WithEnv.
