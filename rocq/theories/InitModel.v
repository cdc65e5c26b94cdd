(** Model of li_can_slv_init, source/core/io_can.c:97-277: the order of the initialisation steps and the handling of their
    results.  The steps themselves are parameters: [out] gives the result of every step. *)
From Verif Require Import Words ErrModel NodeModel.

(** the steps, in the order of the source; [NSave], [NType] and [NTransceiver] have no result *)
Inductive istep :=
| NConfig                   (* can_config_init, 105 *)
| NSave                     (* can_config_save_baudrate_startup, 110 *)
| NTable                    (* can_config_set_baudrate_table, 114 *)
| NHw                       (* can_hw_init, 119 *)
| NType                     (* can_hw_get_mainmon_type, 125 *)
| NMain                     (* can_main_init, 144 *)
| NMon                      (* can_mon_init, 154 *)
| NMainObj (i : nat)        (* can_main_hw_msg_obj_init, 166 *)
| NMonObj (i : nat)         (* can_mon_hw_msg_obj_init, 175 *)
| NDefProcess               (* 184 *)
| NDefMonProcess            (* 192 *)
| NDefMonSys                (* 200 *)
| NDefSys1                  (* 207 *)
| NDefSys2                  (* 212 *)
| NFifo                     (* can_hw_combine_msg_obj_to_two_stage_fifo, 216 *)
| NDefCtrl                  (* 227 *)
| NDefData                  (* 235 *)
| NDefTx                    (* 244 *)
| NSys                      (* can_sys_init, 251 *)
| NAsync                    (* can_async_init, 258 *)
| NSync                     (* can_sync_init, 265 *)
| NTransceiver.             (* can_port_transceiver_enable, 272 *)

(** build options: OUTER or OUTER_APP, LI_CAN_SLV_MAIN_MON, LI_CAN_SLV_MON, LI_CAN_SLV_SYS_OBJ2, LI_CAN_SLV_ASYNC,
    LI_CAN_SLV_BOOT, CAN_ASYNC_CTRL_RX_QUEUE, and the numbers of message objects.  Simplification: the three
    CAN_NODE_B_USED_FOR_RECONNECT_ONLY options are not modelled. *)
Record icfg := ICfg {
  n_outer : bool; n_mainmon : bool; n_mon : bool; n_sys2 : bool; n_async : bool; n_boot : bool; n_queue : bool;
  n_mainobjs : nat; n_monobjs : nat }.

(** the error variable and the steps executed so far *)
Definition ist := (N * list istep)%type.
(** if (err == LI_CAN_SLV_ERR_OK) { err = step(); } *)
Definition step_if_ok (out : istep -> N) (s : istep) (x : ist) : ist :=
  let '(err, tr) := x in if err =? ERR_OK then (out s, tr ++ [s]) else (err, tr).
(** a statement without test and without result *)
Definition step_always (s : istep) (x : ist) : ist := let '(err, tr) := x in (err, tr ++ [s]).
(** if (err == LI_CAN_SLV_ERR_OK) { step(); } *)
Definition step_void (s : istep) (x : ist) : ist := let '(err, tr) := x in if err =? ERR_OK then (err, tr ++ [s]) else (err, tr).
Definition only (b : bool) (f : ist -> ist) (x : ist) : ist := if b then f x else x.
(** for (i = 0; i < n; i++) *)
Definition for_objs (out : istep -> N) (mk : nat -> istep) (n : nat) (x : ist) : ist :=
  fold_left (fun y i => step_if_ok out (mk i) y) (seq 0 n) x.

(** 97-277 li_can_slv_init; [ismain]: the board is the main one of a main/monitor pair (the variable can_mainmon_type, which
    keeps its old value when line 125 is not reached) *)
Definition li_can_slv_init (c : icfg) (out : istep -> N) (ismain : bool) : ist :=
  let x := (ERR_OK, []) in
  let x := only (n_outer c) (step_if_ok out NConfig) x in
  let x := step_always NSave x in
  let x := step_if_ok out NTable x in
  let x := step_if_ok out NHw x in
  let x := only (n_mainmon c) (step_void NType) x in
  let x := step_if_ok out NMain x in
  let x := only (n_mon c && (negb (n_mainmon c) || ismain)) (step_if_ok out NMon) x in
  let x := for_objs out NMainObj (n_mainobjs c) x in
  let x := only (n_mon c) (for_objs out NMonObj (n_monobjs c)) x in
  let x := only (n_outer c) (step_if_ok out NDefProcess) x in
  let x := only (n_mon c) (step_if_ok out NDefMonProcess) x in
  let x := only (n_mon c) (step_if_ok out NDefMonSys) x in
  let x := step_if_ok out NDefSys1 x in
  let x := only (n_outer c && n_sys2 c) (step_if_ok out NDefSys2) x in
  let x := only (n_outer c && n_sys2 c) (step_if_ok out NFifo) x in
  let x := only (n_async c && n_boot c) (step_if_ok out NDefCtrl) x in
  let x := only (n_async c && n_outer c) (step_if_ok out NDefData) x in
  let x := only (n_outer c) (step_if_ok out NDefTx) x in
  let x := only (n_outer c) (step_if_ok out NSys) x in
  let x := only (n_queue c) (step_if_ok out NAsync) x in
  let x := only (n_outer c) (step_if_ok out NSync) x in
  only (n_mainmon c && negb ismain) (step_always NTransceiver) x.
