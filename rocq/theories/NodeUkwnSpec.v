(** Specification for C96: the node whose only module is the module of unknown type. *)
From Verif Require Import Words ErrModel NodeModel NodeSpec.

(** exactly one module, at position 0, of type "UKWN", with number 125 and no process data objects; all other entries unused
    and without objects *)
Record unknown_node (E : env) (s : node) : Prop := {
  un_one : nmod s = 1%nat;
  un_type : m_type (modat s 0) = [85; 75; 87; 78; 0];
  un_nr : m_nr (modat s 0) = 125;
  un_rx : m_nrx (modat s 0) = 0%nat;
  un_tx : m_ntx (modat s 0) = 0%nat;
  un_rest : forall p, (0 < p < MAXM E)%nat -> in_use (modat s p) = false /\ m_nrx (modat s p) = 0%nat /\ m_ntx (modat s p) = 0%nat
}.
(** its acknowledge of a status request: the type and the serial number *)
Definition unknown_status (E : env) : N * N * list byte :=
  (sys_tx_id 125, 8, [4; 85; 75; 87; 78; byte_n (SERIAL E) 2; byte_n (SERIAL E) 1; byte_n (SERIAL E) 0]).
(** a history without additions *)
Definition no_adds (ops : list op) : Prop := adds ops = [].
