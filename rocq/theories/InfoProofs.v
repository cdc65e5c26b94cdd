(** Lemmas about the persistent download information. *)
From Verif Require Import Words WordsFacts ErrModel NodeModel XloadModel InfoModel InfoSpec.

(** ** stores *)
Lemma apply_app : forall a b m, apply (a ++ b) m = apply b (apply a m).
Proof. intros. unfold apply. apply fold_left_app. Qed.
Lemma apply_length : forall ws m, length (apply ws m) = length m.
Proof.
  induction ws as [|w ws IH]; intros m; [reflexivity|]. cbn [apply fold_left]. change (fold_left st1 ws (st1 m w)) with (apply ws (st1 m w)).
  rewrite IH. apply set_nth_length.
Qed.
Lemma apply_other : forall ws m i, (forall w, In w ws -> fst w <> i) -> nth_error (apply ws m) i = nth_error m i.
Proof.
  induction ws as [|w ws IH]; intros m i H; [reflexivity|]. cbn [apply fold_left].
  change (fold_left st1 ws (st1 m w)) with (apply ws (st1 m w)).
  rewrite IH; [|intros; apply H; right; assumption]. apply set_nth_other. apply H. left. reflexivity.
Qed.
Lemma stores_at_in : forall off bs w, In w (stores_at off bs) -> (off <= fst w < off + length bs)%nat /\ In (snd w) bs.
Proof.
  intros off bs [i b] H. unfold stores_at in H. pose proof (in_combine_l _ _ _ _ H) as A. pose proof (in_combine_r _ _ _ _ H) as B.
  apply in_seq in A. cbn [fst snd]. split; [lia|exact B].
Qed.
Lemma apply_at : forall bs off m, (off + length bs <= length m)%nat ->
  apply (stores_at off bs) m = firstn off m ++ bs ++ skipn (off + length bs) m.
Proof.
  induction bs as [|b bs IH]; intros off m L.
  - cbn [stores_at length seq combine apply fold_left app]. rewrite Nat.add_0_r. symmetry. apply firstn_skipn.
  - cbn [length] in L.
    change (apply (stores_at off (b :: bs)) m) with (apply (stores_at (S off) bs) (set_nth m off b)).
    rewrite IH by (rewrite set_nth_length; lia).
    assert (E : forall (l : mem) o, (o < length l)%nat -> set_nth l o b = firstn o l ++ b :: skipn (S o) l).
    { clear. induction l as [|h t IHl]; intros o H; [cbn [length] in H; lia|]. destruct o; [reflexivity|].
      cbn [set_nth firstn skipn app]. f_equal. rewrite IHl by (cbn [length] in H; lia). destruct t; reflexivity. }
    rewrite (E m off) by lia.
    assert (L1 : length (firstn off m) = off) by (apply firstn_length_le; lia).
    assert (F : firstn (S off) (firstn off m ++ b :: skipn (S off) m) = firstn off m ++ [b]).
    { rewrite firstn_app, L1. rewrite firstn_all2 by lia. replace (S off - off)%nat with 1%nat by lia. reflexivity. }
    assert (G : skipn (S off + length bs) (firstn off m ++ b :: skipn (S off) m) = skipn (off + length (b :: bs)) m).
    { rewrite skipn_app, L1. rewrite skipn_all2 by (rewrite L1; lia). cbn [app length].
      replace (S off + length bs - off)%nat with (S (length bs)) by lia.
      change (skipn (S (length bs)) (b :: skipn (S off) m)) with (skipn (length bs) (skipn (S off) m)).
      replace (off + S (length bs))%nat with (S off + length bs)%nat by lia. clear. revert m.
      generalize (S off) as a. generalize (length bs) as k. induction a as [|a IHa]; intros m; [reflexivity|].
      destruct m; [destruct k; reflexivity|]. apply IHa. }
    rewrite F, G, <- app_assoc. reflexivity.
Qed.
Lemma Forall_apply : forall (P : byte -> Prop) ws m, Forall (fun w => P (snd w)) ws -> Forall P m -> Forall P (apply ws m).
Proof.
  induction ws as [|w ws IH]; intros m H F; [exact F|]. cbn [apply fold_left].
  change (fold_left st1 ws (st1 m w)) with (apply ws (st1 m w)). inversion H. apply IH; [assumption|]. apply Forall_set_nth; assumption.
Qed.

Lemma le_bytes_length : forall n x, length (le_bytes n x) = n.
Proof. induction n; intros; cbn [le_bytes length]; [reflexivity|]. rewrite IHn. reflexivity. Qed.
Lemma le_bytes_byte : forall n x, Forall (fun b => b < 256) (le_bytes n x).
Proof. induction n; intros; cbn [le_bytes]; constructor; [lia|apply IHn]. Qed.

(** ** the fields and the checksum *)
Definition low (ws : list store) : Prop := Forall (fun w => (fst w < 36)%nat) ws.
Definition high (ws : list store) : Prop := Forall (fun w => (36 <= fst w)%nat) ws.
Lemma low_at : forall off bs, (off + length bs <= 36)%nat -> low (stores_at off bs).
Proof. intros off bs L. apply Forall_forall. intros w H. apply stores_at_in in H. lia. Qed.
Lemma low_app : forall a b, low a -> low b -> low (a ++ b).
Proof. intros. apply Forall_app. split; assumption. Qed.
Lemma low_stored : forall ws m, low ws -> stored_checksum (apply ws m) = stored_checksum m.
Proof.
  intros ws m L. unfold low in L. rewrite Forall_forall in L. unfold stored_checksum.
  rewrite (nth_error_nth' (apply ws m) 0) || idtac.
  assert (E : forall i, (36 <= i)%nat -> nth i (apply ws m) 0 = nth i m 0).
  { intros i Hi. assert (A : nth_error (apply ws m) i = nth_error m i).
    { apply apply_other. intros w Hw. specialize (L w Hw). lia. }
    revert A. clear. revert m i. 
    assert (D : forall (l : mem) i, nth i l 0 = match nth_error l i with Some x => x | None => 0 end).
    { induction l; destruct i; cbn; try reflexivity. apply IHl. }
    intros m i A. rewrite !D, A. reflexivity. }
  rewrite !E by lia. reflexivity.
Qed.
Lemma high_content : forall ws m, high ws -> content (apply ws m) = content m.
Proof.
  intros ws m L. unfold high in L. rewrite Forall_forall in L. unfold content. apply list_ext. intros i.
  assert (D : forall (l : mem) n j, nth_error (firstn n l) j = if (j <? n)%nat then nth_error l j else None).
  { clear. induction l as [|h t IH]; intros n j.
    - rewrite firstn_nil. destruct (j <? n)%nat; destruct j; reflexivity.
    - destruct n; [destruct j; reflexivity|]. destruct j; [reflexivity|]. cbn [firstn nth_error]. rewrite IH.
      destruct (Nat.ltb_spec j n), (Nat.ltb_spec (S j) (S n)); try lia; reflexivity. }
  rewrite !D. destruct (Nat.ltb_spec i 36); [|reflexivity]. apply apply_other. intros w Hw. specialize (L w Hw). lia.
Qed.

Lemma image_destruct : forall m, image m -> exists b0 b1 b2 b3 b4 b5 b6 b7 b8 b9 b10 b11 b12 b13 b14 b15 b16 b17 b18 b19 b20
  b21 b22 b23 b24 b25 b26 b27 b28 b29 b30 b31 b32 b33 b34 b35 b36 b37,
  m = [b0; b1; b2; b3; b4; b5; b6; b7; b8; b9; b10; b11; b12; b13; b14; b15; b16; b17; b18; b19; b20; b21; b22; b23; b24; b25;
       b26; b27; b28; b29; b30; b31; b32; b33; b34; b35; b36; b37].
Proof.
  intros m [L _]. do 38 (destruct m as [|? m]; [discriminate L|cbn [length] in L]). destruct m; [|discriminate L].
  repeat eexists.
Qed.

Lemma crc_field_stored : forall m, length m = 38%nat -> crc_field m = stored_checksum m.
Proof.
  intros m L. unfold crc_field, stored_checksum, slice, OFF_CRC.
  do 38 (destruct m as [|? m]; [discriminate L|cbn [length] in L]). destruct m; [|discriminate L].
  cbn [skipn firstn le_val nth]. lia.
Qed.
Lemma check_crc_iff : forall C m, length m = 38%nat -> (check_crc C m = true <-> matches C m).
Proof.
  intros C m L. unfold check_crc, matches, checksum, content, covered, OFF_CRC, u16. rewrite crc_field_stored by exact L.
  apply N.eqb_eq.
Qed.

Lemma update_high : forall C m, high (update_crc C m).
Proof.
  intros. unfold update_crc, high. apply Forall_app. split; apply Forall_forall; intros w H; apply stores_at_in in H;
    unfold OFF_CRC in H; lia.
Qed.
Lemma update_matches : forall C m, length m = 38%nat -> matches C (apply (update_crc C m) m).
Proof.
  intros C m L. unfold matches. rewrite high_content by apply update_high.
  unfold update_crc. rewrite apply_app.
  set (m1 := apply (stores_at OFF_CRC (le_bytes 2 (u16 (crc16_init C)))) m).
  assert (L1 : length m1 = 38%nat) by (unfold m1; rewrite apply_length; exact L).
  change (u16 (crc16_update C (u16 (crc16_init C)) (covered m))) with (checksum C (content m)).
  clearbody m1. assert (B : checksum C (content m) < 65536) by (unfold checksum; lia).
  revert B. generalize (checksum C (content m)) as c. intros c B. cbn [le_bytes].
  unfold OFF_CRC, stores_at. cbn [length seq combine]. unfold apply, st1. cbn [fold_left fst snd].
  unfold stored_checksum.
  rewrite nth_set_nth_same by (rewrite set_nth_length; lia).
  rewrite nth_set_nth_other by lia. rewrite nth_set_nth_same by lia. lia.
Qed.

Lemma some_inj : forall A (x y : A), Some x = Some y -> x = y.
Proof. intros A x y H. injection H as H. exact H. Qed.
Lemma clean_low : low clean_stores.
Proof. unfold clean_stores. repeat apply low_app; apply low_at; cbn; lia. Qed.
Lemma field_low : forall C m o ws, field_stores C m o = Some ws -> low ws.
Proof.
  intros C m o ws H. destruct o; cbn [field_stores] in H.
  - destruct (check_crc C m); [discriminate|]. apply some_inj in H. subst ws. apply clean_low.
  - apply some_inj in H. subst ws. apply clean_low.
  - apply some_inj in H. subst ws. apply low_at. cbn. lia.
  - apply some_inj in H. subst ws. apply low_at. rewrite firstn_length. unfold OFF_COMP, SZ_COMP. lia.
  - apply some_inj in H. subst ws. apply low_at. cbn. lia.
  - apply some_inj in H. subst ws. apply low_at. cbn. lia.
  - apply some_inj in H. subst ws. apply low_at. cbn. lia.
Qed.

Definition byte_stores (ws : list store) : Prop := Forall (fun w => snd w < 256) ws.
Lemma bytes_at : forall off bs, Forall (fun b => b < 256) bs -> byte_stores (stores_at off bs).
Proof. intros off bs F. apply Forall_forall. intros w H. apply stores_at_in in H. rewrite Forall_forall in F. apply F, H. Qed.
Lemma clean_bytes : byte_stores clean_stores.
Proof.
  unfold clean_stores. repeat (apply Forall_app; split); apply bytes_at; try apply le_bytes_byte;
    repeat (constructor; try (cbv; reflexivity)).
Qed.
Lemma update_bytes : forall C m, byte_stores (update_crc C m).
Proof. intros. apply Forall_app. split; apply bytes_at, le_bytes_byte. Qed.
Lemma field_bytes : forall C m o ws, iop_ok o -> field_stores C m o = Some ws -> byte_stores ws.
Proof.
  intros C m o ws K H. destruct o; cbn [field_stores iop_ok] in *.
  - destruct (check_crc C m); [discriminate|]. apply some_inj in H. subst ws. apply clean_bytes.
  - apply some_inj in H. subst ws. apply clean_bytes.
  - apply some_inj in H. subst ws. apply bytes_at, le_bytes_byte.
  - apply some_inj in H. subst ws. apply bytes_at. destruct K as [_ K]. rewrite Forall_forall in K |- *. intros x I. apply K.
    eapply In_nth_error in I. destruct I as [n I].
    assert (nth_error c n = Some x); [|eapply nth_error_In; eassumption].
    rewrite <- (firstn_skipn SZ_COMP c). rewrite nth_error_app1; [exact I|]. apply nth_error_some_lt in I. exact I.
  - apply some_inj in H. subst ws. apply bytes_at, le_bytes_byte.
  - apply some_inj in H. subst ws. apply bytes_at. repeat constructor. unfold u8. lia.
  - apply some_inj in H. subst ws. apply bytes_at. repeat constructor. unfold u8. lia.
Qed.
Lemma op_bytes : forall C m o, iop_ok o -> byte_stores (op_stores C m o).
Proof.
  intros C m o K. unfold op_stores. destruct (field_stores C m o) as [ws|] eqn:E; [|constructor].
  apply Forall_app. split; [eapply field_bytes; eassumption|apply update_bytes].
Qed.
Lemma Forall_firstn : forall A (P : A -> Prop) k l, Forall P l -> Forall P (firstn k l).
Proof. intros A P k. induction k; intros l F; [constructor|]. destruct F; cbn [firstn]; constructor; auto. Qed.

Lemma do_op_image : forall C m o, iop_ok o -> image m -> image (do_op C m o).
Proof.
  intros C m o K [L F]. split; [unfold do_op; rewrite apply_length; exact L|].
  apply Forall_apply; [apply op_bytes, K|exact F].
Qed.
Lemma cut_op_image : forall C k m o, iop_ok o -> image m -> image (cut_op C k m o).
Proof.
  intros C k m o K [L F]. split; [unfold cut_op; rewrite apply_length; exact L|].
  apply Forall_apply; [apply Forall_firstn, op_bytes, K|exact F].
Qed.
Lemma do_ops_image : forall C os m, Forall iop_ok os -> image m -> image (do_ops C m os).
Proof.
  intros C os. induction os as [|o os IH]; intros m F I; [exact I|]. inversion F. cbn [do_ops fold_left].
  apply IH; [assumption|]. apply do_op_image; assumption.
Qed.

(** an operation that writes leaves a matching checksum; initialisation always does *)
Lemma do_op_writes : forall C m o ws, length m = 38%nat -> field_stores C m o = Some ws -> matches C (do_op C m o).
Proof.
  intros C m o ws L H. unfold do_op, op_stores. rewrite H, apply_app. apply update_matches. rewrite apply_length. exact L.
Qed.
Lemma do_op_matches : forall C m o, length m = 38%nat -> matches C m \/ o = IInit -> matches C (do_op C m o).
Proof.
  intros C m o L H. destruct (field_stores C m o) as [ws|] eqn:E; [eapply do_op_writes; eassumption|].
  destruct o; try discriminate E. cbn [field_stores] in E. destruct (check_crc C m) eqn:K; [|discriminate].
  unfold do_op, op_stores. cbn [field_stores]. rewrite K. apply check_crc_iff; assumption.
Qed.
Lemma do_ops_matches : forall C os m, length m = 38%nat -> matches C m -> matches C (do_ops C m os).
Proof.
  intros C os. induction os as [|o os IH]; intros m L M; [exact M|]. cbn [do_ops fold_left].
  apply IH; [unfold do_op; rewrite apply_length; exact L|]. apply do_op_matches; [exact L|left; exact M].
Qed.

Lemma init_keeps : forall C m, length m = 38%nat -> matches C m -> do_op C m IInit = m /\ init_rc C m = ERR_OK.
Proof.
  intros C m L M. apply check_crc_iff in M; [|exact L]. unfold do_op, op_stores, init_rc. cbn [field_stores]. rewrite M.
  split; reflexivity.
Qed.

Lemma clean_defaults : forall C m, image m -> defaults (apply (clean_stores ++ update_crc C (apply clean_stores m)) m).
Proof.
  intros C m I. rewrite apply_app. set (m1 := apply clean_stores m). assert (I1 : image m1).
  { destruct I as [L F]. split; [unfold m1; rewrite apply_length; exact L|]. apply Forall_apply; [apply clean_bytes|exact F]. }
  assert (D : defaults m1).
  { clear I1. apply image_destruct in I.
    do 38 (destruct I as [? I]). subst m1 m. cbn -[N.add N.mul N.modulo N.div]. repeat split; vm_compute; reflexivity. }
  clearbody m1. assert (E : content (apply (update_crc C m1) m1) = content m1) by apply high_content, update_high.
  set (m2 := apply (update_crc C m1) m1) in *. assert (L2 : length m2 = 38%nat) by (unfold m2; rewrite apply_length; apply I1).
  destruct I1 as [L1 _]. clearbody m2.
  do 38 (destruct m1 as [|? m1]; [discriminate L1|cbn [length] in L1]). destruct m1; [|discriminate L1].
  do 38 (destruct m2 as [|? m2]; [discriminate L2|cbn [length] in L2]). destruct m2; [|discriminate L2].
  unfold content in E. cbn [firstn] in E. injection E. intros. subst. exact D.
Qed.
Lemma init_resets : forall C m, image m -> ~ matches C m -> defaults (do_op C m IInit) /\ init_rc C m = E_XLOAD_INFO_BAD_CRC.
Proof.
  intros C m I M. destruct (check_crc C m) eqn:K; [exfalso; apply M; apply check_crc_iff; [apply I|exact K]|].
  unfold do_op, op_stores, init_rc. cbn [field_stores]. rewrite K. split; [apply clean_defaults, I|reflexivity].
Qed.

(** the content after a cut: either the checksum is still the old one, or the content is already the new one *)
Lemma cut_cases : forall C k m o, length m = 38%nat ->
  stored_checksum (cut_op C k m o) = stored_checksum m \/ content (cut_op C k m o) = content (do_op C m o).
Proof.
  intros C k m o L. unfold cut_op, do_op, op_stores. destruct (field_stores C m o) as [ws|] eqn:E; [|left; rewrite firstn_nil; reflexivity].
  apply field_low in E. destruct (Nat.le_gt_cases k (length ws)) as [K|K].
  - left. rewrite firstn_app. replace (k - length ws)%nat with 0%nat by lia. cbn [firstn]. rewrite app_nil_r.
    apply low_stored. apply Forall_firstn, E.
  - right. rewrite firstn_app, firstn_all2 by lia. rewrite !apply_app. transitivity (content (apply ws m)); [|symmetry]; apply high_content;
      [apply Forall_firstn|]; apply update_high.
Qed.

Lemma matches_dec : forall C m, matches C m \/ ~ matches C m.
Proof. intros. unfold matches. destruct (N.eq_dec (checksum C (content m)) (stored_checksum m)); [left|right]; assumption. Qed.

Theorem crash : forall C m0 os o k, image m0 -> Forall iop_ok os -> iop_ok o ->
  let m := do_ops C (do_op C m0 IInit) os in
  let t := cut_op C k m o in
  let m' := do_op C t IInit in
  matches C m' /\
  ((matches C t /\ m' = t /\ init_rc C t = ERR_OK /\
    (content t = content m \/ content t = content (do_op C m o) \/
     (content t <> content m /\ checksum C (content t) = checksum C (content m)))) \/
   (~ matches C t /\ init_rc C t = E_XLOAD_INFO_BAD_CRC /\ defaults m')).
Proof.
  intros C m0 os o k I0 F K m t m'.
  assert (I1 : image (do_op C m0 IInit)) by (apply do_op_image; [exact I|exact I0]).
  assert (Im : image m) by (apply do_ops_image; assumption).
  assert (It : image t) by (apply cut_op_image; assumption).
  assert (Mm : matches C m).
  { apply do_ops_matches; [apply I1|]. apply do_op_matches; [apply I0|right; reflexivity]. }
  split; [apply do_op_matches; [apply It|right; reflexivity]|].
  destruct (matches_dec C t) as [M|M].
  - left. destruct (init_keeps C t (proj1 It) M) as [A B]. split; [exact M|]. split; [exact A|]. split; [exact B|].
    destruct (cut_cases C k m o (proj1 Im)) as [S|S]; [|right; left; exact S].
    assert (X : checksum C (content t) = checksum C (content m)).
    { unfold matches in M, Mm. fold t in S. congruence. }
    destruct (list_eq_dec N.eq_dec (content t) (content m)) as [D|D]; [left; exact D|right; right; split; assumption].
  - right. split; [exact M|]. destruct (init_resets C t It M) as [A B]. split; assumption.
Qed.

(** a change of one byte cannot be torn *)
Lemma set_nth_content : forall (m m2 : mem), (forall i, (i < 36)%nat -> nth_error m i = nth_error m2 i) -> content m = content m2.
Proof.
  intros m m2 H. unfold content. apply list_ext. intros i.
  assert (D : forall (l : mem) n j, nth_error (firstn n l) j = if (j <? n)%nat then nth_error l j else None).
  { clear. induction l as [|h t IH]; intros n j.
    - rewrite firstn_nil. destruct (j <? n)%nat; destruct j; reflexivity.
    - destruct n; [destruct j; reflexivity|]. destruct j; [reflexivity|]. cbn [firstn nth_error]. rewrite IH.
      destruct (Nat.ltb_spec j n), (Nat.ltb_spec (S j) (S n)); try lia; reflexivity. }
  rewrite !D. destruct (Nat.ltb_spec i 36); [apply H; assumption|reflexivity].
Qed.
Lemma one_byte_cut : forall C k m o off b rest, length m = 38%nat -> (off + length (b :: rest) <= 36)%nat ->
  field_stores C m o = Some (stores_at off (b :: rest)) -> slice (S off) (length rest) m = rest ->
  content (cut_op C k m o) = content m \/ content (cut_op C k m o) = content (do_op C m o).
Proof.
  intros C k m o off b rest L Lo E R. unfold cut_op, do_op, op_stores. rewrite E.
  set (ws := stores_at off (b :: rest)). destruct (Nat.le_gt_cases (length ws) k) as [K|K].
  - right. rewrite firstn_app, firstn_all2 by lia. rewrite !apply_app. transitivity (content (apply ws m)); [|symmetry]; apply high_content;
      [apply Forall_firstn|]; apply update_high.
  - rewrite firstn_app. replace (k - length ws)%nat with 0%nat by lia. cbn [firstn]. rewrite app_nil_r.
    destruct k as [|k]; [left; reflexivity|]. right. rewrite apply_app. rewrite (high_content (update_crc _ _)) by apply update_high.
    change ws with ((off, b) :: stores_at (S off) rest). cbn [firstn].
    assert (G : forall j l, slice (S off) (length rest) l = rest -> apply (firstn j (stores_at (S off) rest)) l = l).
    { clear. revert off. induction rest as [|r rest IH]; intros off j l H; [destruct j; reflexivity|].
      destruct j as [|j]; [reflexivity|].
      change (firstn (S j) (stores_at (S off) (r :: rest))) with ((S off, r) :: firstn j (stores_at (S (S off)) rest)).
      change (apply ((S off, r) :: firstn j (stores_at (S (S off)) rest)) l)
        with (apply (firstn j (stores_at (S (S off)) rest)) (set_nth l (S off) r)).
      unfold slice in H. assert (N : nth_error l (S off) = Some r /\ firstn (length rest) (skipn (S (S off)) l) = rest).
      { revert H. generalize (S off) as a. cbn [length]. clear. intros a. revert l. induction a as [|a IH]; intros l H.
        - destruct l as [|h t]; [discriminate|]. cbn [skipn firstn] in H |- *. injection H as -> ->. split; [reflexivity|].
          destruct t; exact H || (cbn in *; congruence).
        - destruct l as [|h t]; [discriminate|]. cbn [skipn] in H. destruct (IH _ H) as [A B]. split; [exact A|exact B]. }
      destruct N as [N1 N2]. rewrite set_nth_id by exact N1. apply IH. exact N2. }
    assert (SL : slice (S off) (length rest) (set_nth m off b) = rest).
    { rewrite <- R at 2. unfold slice. f_equal. clear. revert m. induction off as [|off IH]; intros m; destruct m as [|n m]; try reflexivity.
      cbn [set_nth]. change (skipn (S (S off)) (n :: set_nth m off b)) with (skipn (S off) (set_nth m off b)). apply IH. }
    pose proof (G k _ SL) as G1. pose proof (G (length (stores_at (S off) rest)) _ SL) as G2. rewrite firstn_all in G2.
    change (content (apply (firstn k (stores_at (S off) rest)) (set_nth m off b)) =
            content (apply (stores_at (S off) rest) (set_nth m off b))). rewrite G1, G2. reflexivity.
Qed.

Lemma small_mode : forall m, image m -> get_mode m < 256 -> slice 1 3 m = [0; 0; 0].
Proof.
  intros m I H. apply image_destruct in I as I2. do 38 (destruct I2 as [? I2]). subst m.
  unfold get_mode, slice, OFF_MODE in H. cbn [skipn firstn le_val] in H. unfold slice. cbn [skipn firstn].
  destruct I as [_ F]. repeat (inversion F as [|? ? _ F']; clear F; rename F' into F; subst) || idtac.
  f_equal; [lia|]. f_equal; [lia|]. f_equal. lia.
Qed.

Definition one_byte_op (o : iop) : Prop := match o with IMode _ | IUser1 _ | IUser2 _ => True | _ => False end.
Theorem crash_one_byte : forall C m o k, image m -> get_mode m < 6 -> iop_ok o -> one_byte_op o ->
  content (cut_op C k m o) = content m \/ content (cut_op C k m o) = content (do_op C m o).
Proof.
  intros C m o k I G K O. destruct o; try contradiction; cbn [iop_ok] in K.
  - apply (one_byte_cut C k m _ OFF_MODE (mode mod 256) [mode / 256 mod 256; mode / 256 / 256 mod 256; mode / 256 / 256 / 256 mod 256]).
    + apply I.
    + cbn. lia.
    + reflexivity.
    + cbn [length]. change (S OFF_MODE) with 1%nat. rewrite small_mode by (assumption || lia). repeat f_equal; lia.
  - apply (one_byte_cut C k m _ OFF_USER1 (u8 b) []); [apply I|cbn; lia|reflexivity|unfold slice; apply firstn_O].
  - apply (one_byte_cut C k m _ OFF_USER2 (u8 b) []); [apply I|cbn; lia|reflexivity|unfold slice; apply firstn_O].
Qed.

(** ** what a checksum of 16 bits cannot detect *)
Lemma pigeon : forall n (f : nat -> nat), (forall i, (i <= n)%nat -> (f i < n)%nat) ->
  exists i j, (i < j <= n)%nat /\ f i = f j.
Proof.
  induction n as [|n IH]; intros f H; [specialize (H 0%nat (le_n _)); lia|].
  assert (D : forall k, (exists i, (i < k)%nat /\ f i = f (S n)) \/ (forall i, (i < k)%nat -> f i <> f (S n))).
  { induction k as [|k [ [i [A B] ]|A] ]; [right; intros; lia|left; exists i; split; [lia|exact B]|].
    destruct (Nat.eq_dec (f k) (f (S n))) as [E|E]; [left; exists k; split; [lia|exact E]|].
    right. intros i Hi. destruct (Nat.eq_dec i k) as [->|N]; [exact E|apply A; lia]. }
  destruct (D (S n)) as [ [i [A B] ]|A]; [exists i, (S n); split; [lia|exact B]|].
  destruct (IH (fun i => if Nat.eqb (f i) n then f (S n) else f i)) as (i & j & L & E).
  { intros i Hi. specialize (A i ltac:(lia)). pose proof (H i ltac:(lia)). pose proof (H (S n) ltac:(lia)).
    destruct (Nat.eqb_spec (f i) n); lia. }
  exists i, j. split; [lia|]. pose proof (A i ltac:(lia)). pose proof (A j ltac:(lia)). cbn beta in E.
  destruct (Nat.eqb_spec (f i) n), (Nat.eqb_spec (f j) n); congruence.
Qed.

Lemma comp_content : forall C base c, length base = 38%nat -> length c = 28%nat ->
  content (do_op C base (IComp c)) = firstn 4 base ++ c ++ firstn 4 (skipn 32 base).
Proof.
  intros C base c L Lc. unfold do_op, op_stores. cbn [field_stores]. rewrite apply_app, high_content by apply update_high.
  rewrite (firstn_all2 c) by (unfold SZ_COMP; lia). rewrite apply_at by (unfold OFF_COMP; lia). rewrite Lc.
  do 38 (destruct base as [|? base]; [discriminate L|cbn [length] in L]). destruct base; [|discriminate L].
  do 28 (destruct c as [|? c]; [discriminate Lc|cbn [length] in Lc]). destruct c; [|discriminate Lc]. reflexivity.
Qed.
Lemma comp_cut : forall C base c, length base = 38%nat -> length c = 28%nat ->
  content (cut_op C 3 base (IComp c)) = firstn 4 base ++ firstn 3 c ++ firstn 29 (skipn 7 base) /\
  stored_checksum (cut_op C 3 base (IComp c)) = stored_checksum base.
Proof.
  intros C base c L Lc.
  assert (E : cut_op C 3 base (IComp c) = apply (stores_at OFF_COMP (firstn 3 c)) base).
  { unfold cut_op, op_stores. cbn [field_stores]. rewrite (firstn_all2 c) by (unfold SZ_COMP; lia).
    do 28 (destruct c as [|? c]; [discriminate Lc|cbn [length] in Lc]). destruct c; [|discriminate Lc]. reflexivity. }
  rewrite E. split.
  - rewrite apply_at by (rewrite firstn_length, Lc; cbn; lia). rewrite firstn_length, Lc.
    do 38 (destruct base as [|? base]; [discriminate L|cbn [length] in L]). destruct base; [|discriminate L].
    do 28 (destruct c as [|? c]; [discriminate Lc|cbn [length] in Lc]). destruct c; [|discriminate Lc]. reflexivity.
  - apply low_stored, low_at. rewrite firstn_length, Lc. cbn. lia.
Qed.

Theorem torn : forall C, exists m0 os c k,
  image m0 /\ Forall iop_ok os /\ iop_ok (IComp c) /\
  let m := do_ops C (do_op C m0 IInit) os in
  let t := cut_op C k m (IComp c) in
  init_rc C t = ERR_OK /\ do_op C t IInit = t /\
  get_comp t <> get_comp m /\ get_comp t <> get_comp (do_op C m (IComp c)) /\ ~ defaults t.
Proof.
  intros C. set (base := do_op C (repeat 0 38) IInit).
  assert (I0 : image (repeat 0 38)) by (split; [reflexivity|repeat constructor]).
  assert (Ib : image base) by (apply do_op_image; [exact I|exact I0]).
  set (old := fun x : nat => le_bytes 3 (N.of_nat x) ++ repeat 1 25).
  set (new := fun x : nat => le_bytes 3 (N.of_nat x) ++ repeat 2 25).
  set (K := fun x => firstn 4 base ++ old x ++ firstn 4 (skipn 32 base)).
  destruct (pigeon (N.to_nat 65536) (fun x => N.to_nat (checksum C (K x)))) as (a & b & L & E).
  { intros i _. unfold checksum. pose proof (N.mod_lt (crc16_update C (crc16_init C mod 65536) (K i)) 65536 ltac:(lia)). lia. }
  apply N2Nat.inj in E. exists (repeat 0 38), [IComp (old a)], (new b), 3%nat.
  assert (Oa : iop_ok (IComp (old a))).
  { split; [reflexivity|]. apply Forall_app. split; [apply le_bytes_byte|repeat constructor]. }
  assert (Ob : iop_ok (IComp (new b))).
  { split; [reflexivity|]. apply Forall_app. split; [apply le_bytes_byte|repeat constructor]. }
  split; [exact I0|]. split; [constructor; [exact Oa|constructor] |]. split; [exact Ob|].
  cbv zeta. fold base. cbn [do_ops fold_left].
  set (m := do_op C base (IComp (old a))). set (t := cut_op C 3 m (IComp (new b))).
  assert (Im : image m) by (apply do_op_image; assumption).
  assert (It : image t) by (apply cut_op_image; assumption).
  assert (Cm : content m = K a) by (apply comp_content; [apply Ib|reflexivity]).
  assert (Mm : matches C m) by (eapply do_op_writes; [apply Ib|reflexivity]).
  destruct (comp_cut C m (new b) (proj1 Im) eq_refl) as [Ct St]. fold t in Ct, St.
  assert (Cn : content (do_op C m (IComp (new b))) = firstn 4 m ++ new b ++ firstn 4 (skipn 32 m))
    by (apply comp_content; [apply Im|reflexivity]).
  assert (In : image (do_op C m (IComp (new b)))) by (apply do_op_image; assumption).
  set (n := do_op C m (IComp (new b))) in *. clearbody n.
  assert (Ctb : content t = K b).
  { rewrite Ct. clearbody base. clear - Cm Im Ib. unfold content, K, old in *.
    destruct Im as [Lm _], Ib as [Lb _]. clearbody m. cbn [le_bytes] in *.
    do 38 (destruct base as [|? base]; [discriminate Lb|cbn [length] in Lb]). destruct base; [|discriminate Lb].
    do 38 (destruct m as [|? m]; [discriminate Lm|cbn [length] in Lm]). destruct m; [|discriminate Lm].
    cbn [firstn skipn repeat app] in *. injection Cm. intros. subst. reflexivity. }
  assert (Mt : matches C t).
  { unfold matches in *. rewrite Ctb, <- E, <- Cm, St. exact Mm. }
  destruct (init_keeps C t (proj1 It) Mt) as [A B]. split; [exact B|]. split; [exact A|].
  clear A B Mt Mm St Ct E. clearbody base. clear I0. clearbody t. clearbody m.
  assert (Df : le_bytes 3 (N.of_nat b) <> le_bytes 3 (N.of_nat a)).
  { cbn [le_bytes]. intros Q. injection Q as Q1 Q2 Q3. lia. }
  unfold content, K, old in *. unfold get_comp, slice, OFF_COMP, SZ_COMP, defaults.
  destruct Im as [Lm _], Ib as [Lb _], It as [Lt _], In as [Ln _]. cbn [le_bytes] in *.
  do 38 (destruct base as [|? base]; [discriminate Lb|cbn [length] in Lb]). destruct base; [|discriminate Lb].
  do 38 (destruct m as [|? m]; [discriminate Lm|cbn [length] in Lm]). destruct m; [|discriminate Lm].
  do 38 (destruct t as [|? t]; [discriminate Lt|cbn [length] in Lt]). destruct t; [|discriminate Lt].
  do 38 (destruct n as [|? n]; [discriminate Ln|cbn [length] in Ln]). destruct n; [|discriminate Ln].
  unfold new in *. cbn [le_bytes] in *. cbn [firstn skipn repeat app] in *.
  injection Cm. injection Ctb. injection Cn. intros. subst. split; [|split].
  - intros Q. apply Df. injection Q. intros. congruence.
  - intros Q. discriminate Q || (injection Q; intros; discriminate).
  - intros (_ & _ & Q & _). discriminate Q || (injection Q; intros; discriminate).
Qed.

(** the reset to the defaults leaves the stored baud rate as it was *)
Lemma clean_baud : forall C m, image m -> ~ matches C m -> get_baud (do_op C m IInit) = get_baud m.
Proof.
  intros C m I M. destruct (check_crc C m) eqn:K; [exfalso; apply M; apply check_crc_iff; [apply I|exact K]|].
  unfold do_op, op_stores. cbn [field_stores]. rewrite K. rewrite apply_app.
  set (m1 := apply clean_stores m). set (m2 := apply (update_crc C m1) m1).
  assert (E : content m2 = content m1) by apply high_content, update_high.
  assert (L1 : length m1 = 38%nat) by (unfold m1; rewrite apply_length; apply I).
  assert (L2 : length m2 = 38%nat) by (unfold m2; rewrite apply_length; exact L1).
  assert (B1 : get_baud m1 = get_baud m).
  { apply image_destruct in I. do 38 (destruct I as [? I]). subst m. reflexivity. }
  rewrite <- B1. clear B1. clearbody m2. clear M K I. clearbody m1.
  do 38 (destruct m1 as [|? m1]; [discriminate L1|cbn [length] in L1]). destruct m1; [|discriminate L1].
  do 38 (destruct m2 as [|? m2]; [discriminate L2|cbn [length] in L2]). destruct m2; [|discriminate L2].
  unfold content in E. cbn [firstn] in E. injection E. intros. subst. reflexivity.
Qed.
