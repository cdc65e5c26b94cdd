(** Model of a second initialisation of a node with two controllers: source/sync/io_can_sync.c:405-424, build with
    LI_CAN_SLV_MON.

    Simplifications: those of MonModel; the application adds the same modules at the same positions and registers the same
    callbacks again before the next event (io_can.c:188-294 clears both), and does not change its objects meanwhile. *)
From Verif Require Import Words NodeModel MonModel.

(** 411-412: the size given to can_port_memory_set is that of one can_sync_data_t (include/li_can_slv/sync/io_can_sync.h:132-135),
    the first of the array; flags and counters of can_sync are left alone.  413-424 periods and callbacks are not part of this model. *)
Definition sync_reinit (s : mon) : mon :=
  w_cap (fun p o => if (p =? 0)%nat then repeat 0 8 else b_cap s p o)
  (w_monrx (fun p o => if (p =? 0)%nat then repeat 0 8 else b_monrx s p o) s).
