(** The module of unknown type that a node without modules gets at its start (LI_CAN_SLV_UNKNOWN_MODULE):
    source/config/io_can_config.c:659-694, 1036-1051 and source/api/li_can_slv_api.c:108-116. *)
From Verif Require Import Words ErrModel NodeModel.

(** include/li_can_slv/config/li_can_slv_config_defines.h:155 CAN_CONFIG_MODULE_TYPE_UNKNOWN: "UKWN" and the terminator *)
Definition UKWN : list byte := [85; 75; 87; 78; 0].
(** io_can_config.c:659-694 can_config_ukwn_module after the assignments of 1043-1048: no objects, lengths 0, no pointers, no
    conversions.  The five bytes of the type are copied, so the type is the given one. *)
Definition ukwn_desc (type : list byte) (nr : N) : modl := Modl type nr 0 0 0 0 (repeat rxo0 NOBJ) (repeat txo0 NOBJ).

Section Start.
Variable E : env.
(** io_can_config.c:1036-1051 can_config_add_ukwn_module, for a type that is not NULL *)
Definition add_ukwn (type : list byte) (nr : N) : M N :=
  let nr := if (NR_MAX <? nr) || (nr <? NR_MIN) then NR_DEF else nr in
  add_module E (ukwn_desc type nr) nr [] [].
(** li_can_slv_api.c:108-116, the first lines of lcsa_start; its result is not used.  (What lcsa_start does afterwards is modelled
    in InfoModel and ReconModel.) *)
Definition start_ukwn : M unit :=
  n <- gets nmod ;;
  if (n =? 0)%nat then nr <- gets nr_main ;; ignore (add_ukwn UKWN nr) else ret tt.
End Start.
