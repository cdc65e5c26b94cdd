(** The bit rate as the application can read it. *)
From Verif Require Import Words ErrModel NodeModel.

(** source/api/li_can_slv_api.c:296-302 lcsa_get_baudrate, source/config/io_can_config.c:863-867 can_config_get_baudrate *)
Definition get_baudrate (s : node) : N := k_bdr (n_cfg s).
(** source/xload/li_can_slv_xload_info.c:252-255 li_can_slv_xload_info_get_can_baudrate: the rate a boot loader will use; None: none was
    stored since the start *)
Definition loader_rate (s : node) : option N := h_xrate (n_hw s).
