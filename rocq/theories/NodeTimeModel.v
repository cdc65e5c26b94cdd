(** The function handed out for reading a module's valid time. *)
From Verif Require Import Words ErrModel NodeModel.

(** io_can_sync.c:1395-1478 can_sync_get_pr_time_valid_module1 .. module8: the function number [k] (from 0) reads
    pr_time_valid_module[k] when it is called *)
Definition time_of_entry (k : nat) (s : node) : N := nth k (y_tvm (n_sync s)) 0.
(** io_can_sync.c:1088-1152 li_can_slv_sync_set_process_time_valid_fnc with io_can_config.c:1652-1668
    can_config_module_type_valid: the function pointer is written only if the type is found; [pfnc] is its old
    value.  The switch has a case for every position below LI_CAN_SLV_MAX_NR_OF_LOGICAL_MODULES, at most 8. *)
Definition time_function (E : env) (type : list byte) (pfnc : node -> N) (s : node) : N * (node -> N) :=
  match find_type (tab_of s) type 0 with
  | None => (E_TYPE_NOT_FOUND, pfnc)
  | Some pos => (ERR_OK, if (pos <? MAXM E)%nat && (pos <? 8)%nat then time_of_entry pos else pfnc)
  end.
