(** Exact effect of the silent/awake routine. *)
From Verif Require Import Words WordsFacts Bits ErrModel NodeModel NodeLib NodeInv NodeSpec NodeHw.

Lemma mapfirst_nth {A} n (f : A -> A) l i d : (i < length l)%nat -> nth i (mapfirst n f l) d = if (i <? n)%nat then f (nth i l d) else nth i l d.
Proof.
  unfold mapfirst. revert n i. induction l as [|x l IH]; intros n i Hi; [cbn in Hi; lia|].
  destruct n as [|n]; cbn [firstn skipn map app].
  - destruct (Nat.ltb_spec i 0); [lia|reflexivity].
  - destruct i as [|i]; cbn [nth]; [reflexivity|]. rewrite IH by (cbn in Hi; lia). destruct (Nat.ltb_spec i n), (Nat.ltb_spec (S i) (S n)); try lia; reflexivity.
Qed.
Lemma mapfirst_length {A} n (f : A -> A) l : length (mapfirst n f l) = length l.
Proof. unfold mapfirst. rewrite app_length, map_length, <- app_length, firstn_skipn. reflexivity. Qed.
Lemma mapfirst_0 {A} (f : A -> A) l : mapfirst 0 f l = l.
Proof. reflexivity. Qed.
Lemma mapfirst_S {A} n (f : A -> A) l d : (n < length l)%nat -> set_nth (mapfirst n f l) n (f (nth n (mapfirst n f l) d)) = mapfirst (S n) f l.
Proof.
  unfold mapfirst. revert n. induction l as [|x l IH]; intros n Hn; [cbn in Hn; lia|]. destruct n as [|n]; cbn [firstn skipn map app nth set_nth].
  - reflexivity.
  - f_equal. apply IH. cbn in Hn. lia.
Qed.
Lemma skipn_S {A} k (l : list A) : skipn (S k) l = tl (skipn k l).
Proof. revert l. induction k as [|k IH]; intros [|x l]; auto. change (skipn (S (S k)) (x :: l)) with (skipn (S k) l). rewrite IH. reflexivity. Qed.
Lemma nth_ext' {A} (d : A) (l l' : list A) : length l = length l' -> (forall i, (i < length l)%nat -> nth i l d = nth i l' d) -> l = l'.
Proof. intros. eapply nth_ext; eauto. Qed.

Fixpoint objmask (pos n : nat) : N := match n with O => 0 | S k => N.lor (objmask pos k) (txbit pos k) end.

Lemma upd_mod_mod pos f g s : (pos < length (tab_of s))%nat -> upd_mod pos f (upd_mod pos g s) = upd_mod pos (fun m => f (g m)) s.
Proof.
  intro H. unfold upd_mod, upd_cfg. destruct s as [k ? ? ? ? ? ? ? ?]. unfold tab_of in H. cbn in *. unfold set_n_cfg. cbn. f_equal.
  unfold set_k_tab. cbn. rewrite nth_set_nth_same by exact H. rewrite set_nth_set_nth. reflexivity.
Qed.
Lemma modat_upd_mod pos f s p : (pos < length (tab_of s))%nat -> modat (upd_mod pos f s) p = if (p =? pos)%nat then f (modat s pos) else modat s p.
Proof.
  intro H. unfold modat, tab_of, upd_mod, upd_cfg. cbn. destruct (Nat.eqb_spec p pos) as [->|N].
  - apply nth_set_nth_same. exact H.
  - apply nth_set_nth_other. congruence.
Qed.
Lemma upd_mod_ext pos f g s : f (modat s pos) = g (modat s pos) -> upd_mod pos f s = upd_mod pos g s.
Proof. unfold upd_mod, modat, tab_of, upd_cfg. intro H. rewrite H. reflexivity. Qed.
Lemma upd_mod_id pos s : upd_mod pos (fun m => m) s = s.
Proof.
  unfold upd_mod, upd_cfg. destruct s as [[tab ? ? ? ? ? ? ? ? ?] ? ? ? ? ? ? ? ?]. unfold set_n_cfg, set_k_tab. cbn. do 2 f_equal.
  destruct (Nat.lt_ge_cases pos (length tab)).
  - apply set_nth_id. apply nth_error_nth'. exact H.
  - apply set_nth_beyond. exact H.
Qed.
Lemma tab_upd_mod pos f s : length (tab_of (upd_mod pos f s)) = length (tab_of s).
Proof. unfold tab_of, upd_mod, upd_cfg. cbn. apply set_nth_length. Qed.

(** loops that update the objects of one module one after the other *)
Section Loops.
Variable pos : nat.

Definition txform (f : txo -> txo) (k : nat) (s : node) : node := upd_mod pos (fun m => set_m_tx m (mapfirst k f (m_tx m))) s.
Definition rxform (f : rxo -> rxo) (k : nat) (s : node) : node := upd_mod pos (fun m => set_m_rx m (mapfirst k f (m_rx m))) s.
Lemma txform_S f k s : (pos < length (tab_of s))%nat -> (k < length (m_tx (modat s pos)))%nat -> upd_mod pos (upd_txo k f) (txform f k s) = txform f (S k) s.
Proof.
  intros Hp Hk. unfold txform. rewrite upd_mod_mod by exact Hp. apply upd_mod_ext. unfold upd_txo, set_m_tx, txat. cbn. f_equal. apply mapfirst_S, Hk.
Qed.
Lemma rxform_S f k s : (pos < length (tab_of s))%nat -> (k < length (m_rx (modat s pos)))%nat -> upd_mod pos (upd_rx k f) (rxform f k s) = rxform f (S k) s.
Proof.
  intros Hp Hk. unfold rxform. rewrite upd_mod_mod by exact Hp. apply upd_mod_ext. unfold upd_rx, set_m_rx, rxat. cbn. f_equal. apply mapfirst_S, Hk.
Qed.

Lemma tx_off_loop f n k s s' : (pos < length (tab_of s))%nat -> (k + n <= length (m_tx (modat s pos)))%nat ->
  for_do n k (fun i => tx_data_off pos i ;;; modify (upd_mod pos (upd_txo i f)))
     (upd_tx (fun x => set_x_reg x (N.ldiff (x_reg x) (objmask pos k))) (txform f k s)) = Ret (tt, s') ->
  s' = upd_tx (fun x => set_x_reg x (N.ldiff (x_reg x) (objmask pos (k + n)))) (txform f (k + n) s).
Proof.
  revert k. induction n as [|n IH]; intros k Hp Hk H; cbn [for_do] in H.
  - apply ret_inv in H. destruct H as [_ ->]. rewrite Nat.add_0_r. reflexivity.
  - mbind H as u s1 H1. replace (k + S n)%nat with (S k + n)%nat by lia. apply IH; auto; [lia|].
    replace s1 with (upd_tx (fun x => set_x_reg x (N.ldiff (x_reg x) (objmask pos (S k)))) (txform f (S k) s)) in H; auto.
    mbind H1 as u2 s2 H2. unfold tx_data_off in H2. apply modify_inv in H2. apply modify_inv in H1. subst s1 s2.
    rewrite <- (txform_S f k) by (auto; lia). unfold upd_mod, upd_cfg, upd_tx, set_x_reg, set_n_cfg, set_n_tx. cbn.
    cbn [objmask]. rewrite N.ldiff_ldiff_l. reflexivity.
Qed.
Lemma tx_on_loop f n k s s' : (pos < length (tab_of s))%nat -> (k + n <= length (m_tx (modat s pos)))%nat ->
  for_do n k (fun i => tx_data_on pos i ;;; modify (upd_mod pos (upd_txo i f)))
     (upd_tx (fun x => set_x_reg x (N.lor (x_reg x) (objmask pos k))) (txform f k s)) = Ret (tt, s') ->
  s' = upd_tx (fun x => set_x_reg x (N.lor (x_reg x) (objmask pos (k + n)))) (txform f (k + n) s).
Proof.
  revert k. induction n as [|n IH]; intros k Hp Hk H; cbn [for_do] in H.
  - apply ret_inv in H. destruct H as [_ ->]. rewrite Nat.add_0_r. reflexivity.
  - mbind H as u s1 H1. replace (k + S n)%nat with (S k + n)%nat by lia. apply IH; auto; [lia|].
    replace s1 with (upd_tx (fun x => set_x_reg x (N.lor (x_reg x) (objmask pos (S k)))) (txform f (S k) s)) in H; auto.
    mbind H1 as u2 s2 H2. unfold tx_data_on in H2. apply modify_inv in H2. apply modify_inv in H1. subst s1 s2.
    rewrite <- (txform_S f k) by (auto; lia). unfold upd_mod, upd_cfg, upd_tx, set_x_reg, set_n_cfg, set_n_tx. cbn.
    cbn [objmask]. rewrite N.lor_assoc. reflexivity.
Qed.
Lemma rx_loop f n k s s' : (pos < length (tab_of s))%nat -> (k + n <= length (m_rx (modat s pos)))%nat ->
  for_do n k (fun i => modify (upd_mod pos (upd_rx i f))) (rxform f k s) = Ret (tt, s') -> s' = rxform f (k + n) s.
Proof.
  revert k. induction n as [|n IH]; intros k Hp Hk H; cbn [for_do] in H.
  - apply ret_inv in H. destruct H as [_ ->]. rewrite Nat.add_0_r. reflexivity.
  - mbind H as u s1 H1. apply modify_inv in H1. subst s1. rewrite rxform_S in H by (auto; lia). replace (k + S n)%nat with (S k + n)%nat by lia. apply IH; auto; lia.
Qed.

Lemma zero_loop n k s s' : (k + n <= length (m_rx (modat s pos)))%nat ->
  for_do n k (fun i => o <- gets (fun s => rxat (modat s pos) i) ;; call_rx (r_conv o) (repeat 0 8) (r_addr o) (r_dlc o) ;;; ret tt) s = Ret (tt, s') ->
  s' = set_n_mem s (zeroed (firstn n (skipn k (m_rx (modat s pos)))) (n_mem s)).
Proof.
  revert k s. induction n as [|n IH]; intros k s Hk H; cbn [for_do] in H.
  - apply ret_inv in H. destruct H as [_ ->]. cbn [firstn zeroed]. destruct s; reflexivity.
  - mbind H as u s1 H1. mbind H1 as o s2 H2. apply gets_inv in H2. destruct H2 as [-> ->]. mbind H1 as e s3 H3. apply ret_inv in H1. destruct H1 as [_ ->].
    destruct (skipn k (m_rx (modat s pos))) as [|o l] eqn:Sk. { apply (f_equal (@length _)) in Sk. rewrite skipn_length in Sk. cbn in Sk. lia. }
    assert (rxat (modat s pos) k = o) as Ho.
    { unfold rxat. rewrite <- (firstn_skipn k (m_rx (modat s pos))), Sk. rewrite app_nth2; rewrite firstn_length; [|lia]. replace (k - Nat.min k (length (m_rx (modat s pos))))%nat with 0%nat by lia. reflexivity. }
    rewrite Ho in H3. unfold call_rx in H3. cbn [firstn zeroed]. destruct (r_conv o) as [g|]; [|discriminate].
    mbind H3 as mem s4 H4. apply gets_inv in H4. destruct H4 as [-> ->]. destruct (nth_error (n_mem s) (r_addr o)) as [app|] eqn:Na; [|discriminate].
    rewrite (nth_error_nth _ _ [] Na). destruct (g (repeat 0 8) app (r_dlc o)) as [app' e'] eqn:G. cbn [fst].
    mbind H3 as u5 s5 H5. apply modify_inv in H5. apply ret_inv in H3. destruct H3 as [-> ->]. subst s5.
    apply IH in H; [|exact (ltac:(change (modat (set_n_mem s _) pos) with (modat s pos); lia))].
    change (modat (set_n_mem s _) pos) with (modat s pos) in H. assert (skipn (S k) (m_rx (modat s pos)) = l) as Sl.
    { rewrite skipn_S, Sk. reflexivity. }
    rewrite Sl in H. exact H.
Qed.
End Loops.

Lemma upd_tx_modat g s p : modat (upd_tx g s) p = modat s p.
Proof. reflexivity. Qed.
Lemma modat_sub m s s' : tab_of s' = tab_of s -> modat s' m = modat s m.
Proof. unfold modat. intros ->. reflexivity. Qed.


Lemma txform_0 pos f s : txform pos f 0 s = s.
Proof. unfold txform. rewrite <- (upd_mod_id pos s) at 2. apply upd_mod_ext. rewrite mapfirst_0. destruct (modat s pos); reflexivity. Qed.
Lemma rxform_0 pos f s : rxform pos f 0 s = s.
Proof. unfold rxform. rewrite <- (upd_mod_id pos s) at 2. apply upd_mod_ext. rewrite mapfirst_0. destruct (modat s pos); reflexivity. Qed.
Lemma upd_tx_id g s : g (n_tx s) = n_tx s -> upd_tx g s = s.
Proof. intro H. unfold upd_tx. rewrite H. destruct s; reflexivity. Qed.

Lemma tx_off_loop0 pos f n s s' : (pos < length (tab_of s))%nat -> (n <= length (m_tx (modat s pos)))%nat ->
  for_do n 0 (fun i => tx_data_off pos i ;;; modify (upd_mod pos (upd_txo i f))) s = Ret (tt, s') ->
  s' = upd_tx (fun x => set_x_reg x (N.ldiff (x_reg x) (objmask pos n))) (txform pos f n s).
Proof.
  intros Hp Hn H. apply (tx_off_loop pos f n 0); auto. rewrite txform_0, upd_tx_id; auto.
  cbn [objmask]. rewrite N.ldiff_0_r. destruct (n_tx s); reflexivity.
Qed.
Lemma tx_on_loop0 pos f n s s' : (pos < length (tab_of s))%nat -> (n <= length (m_tx (modat s pos)))%nat ->
  for_do n 0 (fun i => tx_data_on pos i ;;; modify (upd_mod pos (upd_txo i f))) s = Ret (tt, s') ->
  s' = upd_tx (fun x => set_x_reg x (N.lor (x_reg x) (objmask pos n))) (txform pos f n s).
Proof.
  intros Hp Hn H. apply (tx_on_loop pos f n 0); auto. rewrite txform_0, upd_tx_id; auto.
  cbn [objmask]. rewrite N.lor_0_r. destruct (n_tx s); reflexivity.
Qed.
Lemma rx_loop0 pos f n s s' : (pos < length (tab_of s))%nat -> (n <= length (m_rx (modat s pos)))%nat ->
  for_do n 0 (fun i => modify (upd_mod pos (upd_rx i f))) s = Ret (tt, s') -> s' = rxform pos f n s.
Proof. intros Hp Hn H. apply (rx_loop pos f n 0); auto. rewrite rxform_0. exact H. Qed.

Section SA.
Variable E : env.

Lemma sync_off_eq pos s s' : (pos < length (tab_of s))%nat -> modok (modat s pos) -> sync_off pos s = Ret (tt, s') ->
  s' = set_n_mem (upd_tx (fun x => set_x_reg x (N.ldiff (x_reg x) (objmask pos (m_ntx (modat s pos))))) (upd_mod pos silenced s))
         (zeroed (firstn (m_nrx (modat s pos)) (m_rx (modat s pos))) (n_mem s)).
Proof.
  intros Hp (Br & Bt & _ & _ & Lr & Lt) H. unfold sync_off in H. mbind H as m s0 H0. apply gets_inv in H0. destruct H0 as [-> ->].
  set (m := modat s pos) in *.
  mbind H as u1 s1 H1. apply modify_inv in H1. mbind H as u2 s2 H2. mbind H as u3 s3 H3. apply modify_inv in H3. mbind H as u4 s4 H4. destruct u2, u4.
  assert (modat s1 pos = set_m_ntx_s m 0) as M1 by (subst s1; rewrite modat_upd_mod, Nat.eqb_refl by auto; reflexivity).
  assert (length (tab_of s1) = length (tab_of s)) as T1 by (subst s1; apply tab_upd_mod).
  apply tx_off_loop0 in H2; [|lia|rewrite M1; cbn; lia].
  set (f := fun o : txo => set_t_conv_s (set_t_dlc_s o 0) (Some tx_dummy)) in *.
  assert (s2 = upd_tx (fun x => set_x_reg x (N.ldiff (x_reg x) (objmask pos (m_ntx m)))) (upd_mod pos (fun m => set_m_tx (set_m_ntx_s m 0) (mapfirst (m_ntx (modat s pos)) f (m_tx m))) s)) as S2.
  { rewrite H2, H1. unfold txform. rewrite upd_mod_mod by auto. reflexivity. }
  clear H2 H1 M1 T1. set (g := fun m0 => set_m_tx (set_m_ntx_s m0 0) (mapfirst (m_ntx (modat s pos)) f (m_tx m0))) in *.
  assert (s3 = upd_tx (fun x => set_x_reg x (N.ldiff (x_reg x) (objmask pos (m_ntx m)))) (upd_mod pos (fun m => set_m_nrx_s (g m) 0) s)) as S3.
  { rewrite <- (upd_mod_mod pos (fun m => set_m_nrx_s m 0) g s) by auto. rewrite H3, S2. reflexivity. }
  clear H3 S2. assert (modat s3 pos = set_m_nrx_s (g m) 0) as M3 by (rewrite S3, upd_tx_modat, modat_upd_mod, Nat.eqb_refl by auto; reflexivity).
  assert (length (tab_of s3) = length (tab_of s)) as T3 by (rewrite S3; apply (tab_upd_mod pos)).
  apply rx_loop0 in H4; [|lia|rewrite M3; cbn; lia].
  set (h := fun o : rxo => set_r_conv_s (set_r_dlc_s o 0) (Some rx_dummy)) in *.
  assert (s4 = upd_tx (fun x => set_x_reg x (N.ldiff (x_reg x) (objmask pos (m_ntx m)))) (upd_mod pos silenced s)) as S4.
  { rewrite H4, S3. unfold rxform. transitivity (upd_tx (fun x => set_x_reg x (N.ldiff (x_reg x) (objmask pos (m_ntx m))))
      (upd_mod pos (fun m0 => set_m_rx m0 (mapfirst (m_nrx m) h (m_rx m0))) (upd_mod pos (fun m0 => set_m_nrx_s (g m0) 0) s))); [reflexivity|].
    rewrite upd_mod_mod by auto. reflexivity. }
  clear H4 S3 M3 T3. assert (modat s4 pos = silenced m) as M4 by (rewrite S4, upd_tx_modat, modat_upd_mod, Nat.eqb_refl by auto; reflexivity).
  apply zero_loop in H; [|rewrite M4; cbn; rewrite mapfirst_length; lia]. rewrite H, M4, S4. cbn [skipn m_rx silenced].
  f_equal. change (n_mem (upd_tx _ (upd_mod pos silenced s))) with (n_mem s). unfold mapfirst. rewrite firstn_app, firstn_map, firstn_firstn, Nat.min_id, map_length, firstn_length.
  replace (m_nrx m - Nat.min (m_nrx m) (length (m_rx m)))%nat with 0%nat by lia. cbn [firstn]. rewrite app_nil_r.
  generalize (n_mem s). induction (firstn (m_nrx m) (m_rx m)) as [|o l IHl]; intro mem; cbn [map zeroed]; auto.
Qed.

Lemma sync_on_eq pos s s' : (pos < length (tab_of s))%nat -> modok (modat s pos) -> sync_on pos s = Ret (tt, s') ->
  s' = upd_tx (fun x => set_x_reg x (N.lor (x_reg x) (objmask pos (m_ntx (modat s pos))))) (upd_mod pos awakened s).
Proof.
  intros Hp (Br & Bt & _ & _ & Lr & Lt) H. unfold sync_on in H. mbind H as m s0 H0. apply gets_inv in H0. destruct H0 as [-> ->].
  set (m := modat s pos) in *.
  mbind H as u1 s1 H1. apply modify_inv in H1. mbind H as u2 s2 H2. mbind H as u3 s3 H3. apply modify_inv in H3. destruct u2.
  assert (modat s1 pos = set_m_ntx_s m (m_ntx m)) as M1 by (subst s1; rewrite modat_upd_mod, Nat.eqb_refl by auto; reflexivity).
  assert (length (tab_of s1) = length (tab_of s)) as T1 by (subst s1; apply tab_upd_mod).
  apply (tx_on_loop0 pos (fun o => set_t_conv_s (set_t_dlc_s o (t_dlc o)) (t_conv o))) in H2; [|lia|rewrite M1; cbn; lia].
  set (f := fun o : txo => set_t_conv_s (set_t_dlc_s o (t_dlc o)) (t_conv o)) in *.
  set (X := fun x : txst => set_x_reg x (N.lor (x_reg x) (objmask pos (m_ntx m)))) in *.
  assert (s2 = upd_tx X (upd_mod pos (fun m0 => set_m_tx (set_m_ntx_s m0 (m_ntx m)) (mapfirst (m_ntx (modat s pos)) f (m_tx m0))) s)) as S2.
  { rewrite H2, H1. unfold txform. rewrite upd_mod_mod by auto. reflexivity. }
  clear H2 H1 M1 T1. set (g := fun m0 => set_m_tx (set_m_ntx_s m0 (m_ntx m)) (mapfirst (m_ntx (modat s pos)) f (m_tx m0))) in *.
  assert (s3 = upd_tx X (upd_mod pos (fun m0 => set_m_nrx_s (g m0) (m_nrx m)) s)) as S3.
  { rewrite H3, S2. transitivity (upd_tx X (upd_mod pos (fun m0 => set_m_nrx_s m0 (m_nrx m0)) (upd_mod pos g s))); [reflexivity|].
    rewrite upd_mod_mod by auto. f_equal; try (apply upd_mod_ext; reflexivity). }
  clear H3 S2. assert (modat s3 pos = set_m_nrx_s (g m) (m_nrx m)) as M3 by (rewrite S3, upd_tx_modat, modat_upd_mod, Nat.eqb_refl by auto; reflexivity).
  assert (length (tab_of s3) = length (tab_of s)) as T3 by (rewrite S3; apply (tab_upd_mod pos)).
  apply (rx_loop0 pos (fun o => set_r_conv_s (set_r_dlc_s o (r_dlc o)) (r_conv o))) in H; [|lia|rewrite M3; cbn; lia].
  set (h := fun o : rxo => set_r_conv_s (set_r_dlc_s o (r_dlc o)) (r_conv o)) in *.
  rewrite H, S3. unfold rxform. transitivity (upd_tx X
      (upd_mod pos (fun m0 => set_m_rx m0 (mapfirst (m_nrx m) h (m_rx m0))) (upd_mod pos (fun m0 => set_m_nrx_s (g m0) (m_nrx m)) s))); [reflexivity|].
  rewrite upd_mod_mod by auto. f_equal; try (apply upd_mod_ext; reflexivity).
Qed.

(** the whole routine *)
Definition sil_events (s : node) (pos : nat) (st : N) : list event :=
  match k_silcb (n_cfg s) with Some c => [EvSilent c pos (m_type (modat s pos)) (m_nr (modat s pos)) st] | None => [] end.
Definition marked (s : node) (pos : nat) (st : N) : node :=
  set_n_log (upd_cfg (fun k => set_k_silent k (set_nth (k_silent k) pos st)) s) (n_log s ++ sil_events s pos st).
Lemma set_silent_awake_eq pos st s e s' : WF E s -> set_silent_awake E pos st s = Ret (e, s') ->
  if (pos <? MAXM E)%nat then
    let a := marked s pos st in
    if st =? SILENT then e = ERR_OK /\
      s' = set_n_mem (upd_tx (fun x => set_x_reg x (N.ldiff (x_reg x) (objmask pos (m_ntx (modat s pos))))) (upd_mod pos silenced a))
             (zeroed (firstn (m_nrx (modat s pos)) (m_rx (modat s pos))) (n_mem s))
    else if st =? AWAKE then e = ERR_OK /\
      s' = upd_tx (fun x => set_x_reg x (N.lor (x_reg x) (objmask pos (m_ntx (modat s pos))))) (upd_mod pos awakened a)
    else e = E_SILENT_STATE /\ s' = a
  else e = E_WRONG_TABLE_POS /\ s' = s.
Proof.
  intros ((Lt & Ft & Ls & _) & _) H. unfold set_silent_awake in H. destruct (Nat.ltb_spec pos (MAXM E)) as [Hp|Hp]; [|apply ret_inv in H; destruct H; auto].
  cbv zeta. mbind H as u1 s1 H1. apply modify_inv in H1. mbind H as cb s2 H2. apply gets_inv in H2. destruct H2 as [-> ->].
  mbind H as m s2 H2. apply gets_inv in H2. destruct H2 as [-> ->]. mbind H as u3 s3 H3.
  assert (s3 = marked s pos st) as ->.
  { unfold marked, sil_events. subst s1. unfold emit_cb in H3. change (k_silcb (n_cfg (upd_cfg (fun k => set_k_silent k (set_nth (k_silent k) pos st)) s))) with (k_silcb (n_cfg s)) in H3.
    destruct (k_silcb (n_cfg s)) as [c|].
    - unfold emit in H3. apply modify_inv in H3. subst s3. reflexivity.
    - apply ret_inv in H3. destruct H3 as [_ ->]. rewrite app_nil_r. reflexivity. }
  clear H3 H1. assert (tab_of (marked s pos st) = tab_of s) as T by reflexivity. assert (modat (marked s pos st) pos = modat s pos) as Mt by reflexivity.
  assert (modok (modat s pos)) as Mo by (apply nth_modok; exact Ft).
  destruct (st =? SILENT); [|destruct (st =? AWAKE)].
  - mbind H as u4 s4 H4. apply ret_inv in H. destruct H as [-> ->]. split; auto. destruct u4. apply sync_off_eq in H4; [rewrite H4; reflexivity|rewrite T; unfold tab_of; lia|exact Mo].
  - mbind H as u4 s4 H4. apply ret_inv in H. destruct H as [-> ->]. split; auto. destruct u4. apply sync_on_eq in H4; [exact H4|rewrite T; unfold tab_of; lia|exact Mo].
  - apply ret_inv in H. destruct H as [-> ->]. auto.
Qed.
End SA.
