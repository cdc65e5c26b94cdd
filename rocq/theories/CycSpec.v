(** One process cycle of a bus with several nodes. *)
From Verif Require Import Words ErrModel NodeModel NodeSpec NodeBusSpec CommSpec.

(** a node after any history of additions, data, system messages and calls that leave the module numbers alone *)
Definition in_order (c : station) : Prop := env_ok (st_env c) /\ exists pre, Forall (plain (st_env c)) pre /\ reached (st_env c) pre (st_node c).
(** the modules of any two nodes have different numbers *)
Definition apart (bus : list station) : Prop := ForallOrdPairs (fun a c => numbers_apart (st_node a) (st_node c)) bus.
(** the node handles a process request and sends the frames [fs] *)
Definition cycle (dlc : N) (now : N) (c : station) (fs : list (N * N * list byte)) : Prop :=
  exists s' new, step (st_env c) (request dlc now) (st_node c) = Ret (tt, s') /\ added (st_node c) s' new /\ fs = sent new.
(** the identifiers of process data in a list of frames *)
Definition data_ids (fs : list (N * N * list byte)) : list N := filter (fun id => 1024 <=? id) (map (fun f => fst (fst f)) fs).
(** object [o] of module [p] takes part in the cycle *)
Definition takes_part (c : station) (p o : nat) : Prop :=
  in_use (modat (st_node c) p) = true /\ awake (st_node c) p = true /\ (o < m_ntx (modat (st_node c) p))%nat.
(** every conversion of the node succeeds *)
Definition converts (c : station) : Prop := forall p o can, takes_part c p o -> exists can', convert (st_node c) p o can = Some (can', ERR_OK).
(** the frame of object [o] of module [p]: the application's data as the conversion of the object puts it into the frame buffer
    (which the objects share, so that what a conversion does not write is left from the object before) *)
Definition carries (c : station) (p o : nat) (f : N * N * list byte) : Prop :=
  let t := txat (modat (st_node c) p) o in
  exists app g can can', nth_error (n_mem (st_node c)) (t_addr t) = Some app /\ t_conv_s t = Some g /\
    g can (firstn 8 app) (t_dlc t) = (can', ERR_OK) /\ f = (data_tx_id (number c p) o, t_dlc t, firstn (N.to_nat (t_dlc t)) can').
(** what a receiver of the bus finds under an identifier *)
Definition under (id : N) (fs : list (N * N * list byte)) : list (N * N * list byte) := filter (fun f => fst (fst f) =? id) fs.
(** the conversion of the object writes the bytes [d] whatever is in the frame buffer *)
Definition writes (c : station) (p o : nat) (d : list byte) : Prop :=
  let t := txat (modat (st_node c) p) o in
  exists app g, nth_error (n_mem (st_node c)) (t_addr t) = Some app /\ t_conv_s t = Some g /\
    forall can, firstn (N.to_nat (t_dlc t)) (fst (g can (firstn 8 app) (t_dlc t))) = d.
