(** C112: initialising a node with two controllers again. *)
From Verif Require Import Words NodeModel MonModel MonSpec MonProofs MonProps MonInitModel MonInitSpec MonInit.
From Coq Require Import Lia.

(** From every state and for everything that follows: a second initialisation changes neither the frames that are sent, nor
    when verdicts are given and on which modules, nor the verdict on any module but the one at the first position.

    Partial: it also does not make the node forget what was counted before (C112_counts_refuted), and the module at the first
    position is treated differently from the others (C112_first_refuted). *)
Theorem C112_other_modules_partial : forall c s h,
  match mrun c h s, mrun c h (sync_reinit s) with
  | Some (_, o), Some (_, o') => filter not_first o = filter not_first o' /\ map fst (mverdicts o) = map fst (mverdicts o')
  | None, None => True
  | _, _ => False
  end.
Proof.
  intros c s h. pose proof (oth_run c h s (sync_reinit s) (reinit_base s) (reinit_oth s)) as K.
  destruct (mrun c h s) as [[t o]|], (mrun c h (sync_reinit s)) as [[t' o']|]; cbn [okm] in K; try exact K. apply K.
Qed.
Print Assumptions C112_other_modules_partial.

(** After a process request on the main controller, later one on the monitor and later one more on either, everything that can
    be observed is as if there had been no second initialisation: no trace of it is left in any module. *)
Theorem C112_forgotten_partial : forall c s h1 d n h2 d' n' h3 e h t o t' o',
  let g := h1 ++ [MainReq d n] ++ h2 ++ [MonReq d' n'] ++ h3 ++ [e] in
  full c -> is_req e = true -> Forall frame_ok (g ++ h) ->
  mrun c g s = Some (t, o) -> mrun c g (sync_reinit s) = Some (t', o') ->
  option_map snd (mrun c h t) = option_map snd (mrun c h t').
Proof.
  intros c s h1 d n h2 d' n' h3 e h t o t' o' g F R G H H'. apply Forall_app in G. destruct G as [G1 G2].
  eapply stage_obs; [exact F|exact G2|]. eapply forgotten; [exact F|apply reinit_base|exact R|exact G1|exact H|exact H'].
Qed.
Print Assumptions C112_forgotten_partial.

(** Two modules, numbers 5 and 6, with one receive and one transmit object each *)
Definition tab56 : mtab := [MMod 5 [RObj 2 cp cp] [TObj 2 cp_main cp]; MMod 6 [RObj 2 cp cp] [TObj 2 cp_main cp]].
Definition frames6 (a b x y : N) : list mev :=
  [MainData 1 532 2 (fr a b); MonData 1 532 2 (fr a b); MonTx 1 1044 2 (fr x y) []].
Definition with_reinit (h1 h2 : list mev) : option (list (nat * bool)) :=
  match mrun tab56 h1 (mon0 z8 (app2 7 8) z8 z8) with
  | Some (s, _) => option_map (fun r => mverdicts (snd r)) (mrun tab56 h2 (sync_reinit s))
  | None => None
  end.

(** Finding (io_can_sync.c:411-412): the size of one element is cleared instead of the whole array.  A second initialisation
    between the requests and the frames of a cycle turns the module at the first position invalid and leaves the second one
    valid, although both got and sent the same frames; without it both are valid. *)
Theorem C112_first_refuted : exists h1 h2,
  verdicts_of tab56 (app2 7 8) (h1 ++ h2) = Some [(0%nat, true); (1%nat, true)] /\
  with_reinit h1 h2 = Some [(0%nat, false); (1%nat, true)].
Proof.
  exists [MainReq 1 10; MonReq 1 10], (frames 1 2 7 8 ++ frames6 1 2 7 8 ++ [MainReq 1 20]).
  split; vm_compute; reflexivity.
Qed.
Print Assumptions C112_first_refuted.

(** Finding: the flags and counters of the process image survive the initialisation.  With frames and requests that all came
    before it, the request after it declares the second module valid: a verdict about a cycle of the node's earlier life. *)
Theorem C112_counts_refuted : exists h1,
  with_reinit h1 [MainReq 1 20] = Some [(0%nat, false); (1%nat, true)].
Proof.
  exists ([MainReq 1 10; MonReq 1 10] ++ frames 1 2 7 8 ++ frames6 1 2 7 8). vm_compute. reflexivity.
Qed.
Print Assumptions C112_counts_refuted.

(** the hypotheses are met, and the verdicts afterwards are the usual ones *)
Lemma tab56_full : full tab56.
Proof.
  repeat (apply Forall_cons || apply Forall_nil || split); cbn [mm_rx mm_tx ro_main ro_mon ro_dlc to_mon to_dlc];
    intros d L; unfold cp; rewrite firstn_length, L; reflexivity.
Qed.
Example C112_case : let s := mon0 z8 (app2 7 8) z8 z8 in
  let g := [] ++ [MainReq 1 10] ++ [] ++ [MonReq 1 10] ++ frames 1 2 7 8 ++ [MainReq 1 20] in
  let h := [MonReq 1 20] ++ frames 1 2 7 8 ++ frames6 3 4 7 8 ++ [MainReq 1 30] in
  full tab56 /\ Forall frame_ok (g ++ h) /\
  exists t o t' o', mrun tab56 g s = Some (t, o) /\ mrun tab56 g (sync_reinit s) = Some (t', o') /\
    option_map (fun r => mverdicts (snd r)) (mrun tab56 h t') = Some [(0%nat, true); (1%nat, true)].
Proof.
  cbv zeta. split; [apply tab56_full|]. split; [repeat first [apply Forall_nil | apply Forall_cons; [cbn; auto|]]|].
  do 4 eexists. split; [vm_compute; reflexivity|]. split; [vm_compute; reflexivity|]. vm_compute. reflexivity.
Qed.
