(** * Basic facts about sequential execution (proof infrastructure) *)
From Verif Require Export BodyModel.
From Coq Require Import ZifyBool.

Lemma zlen_nonneg {A} (l : list A) : 0 <= zlen l.
Proof. unfold zlen; lia. Qed.
Lemma zlen_app {A} (l k : list A) : zlen (l ++ k) = zlen l + zlen k.
Proof. unfold zlen; rewrite app_length; lia. Qed.
Lemma zlen_nil {A} : zlen (@nil A) = 0. Proof. reflexivity. Qed.
Lemma zlen_pos_ne {A} (l : list A) : l <> [] -> 0 < zlen l.
Proof. destruct l; [done|]. unfold zlen. cbn [length]. lia. Qed.
Lemma zlen_cons {A} (a : A) l : zlen (a :: l) = 1 + zlen l.
Proof. unfold zlen; cbn [length]; lia. Qed.
Lemma zlen_take {A} n (l : list A) : zlen (take n l) = Z.min (Z.of_nat n) (zlen l).
Proof. unfold zlen; rewrite take_length; lia. Qed.
Lemma zlen_drop {A} n (l : list A) : zlen (drop n l) = Z.max 0 (zlen l - Z.of_nat n).
Proof. unfold zlen; rewrite drop_length; lia. Qed.

Lemma wrap64_id z : min_i64 <= z <= max_i64 -> wrap64 z = z.
Proof. unfold wrap64, min_i64, max_i64; intros H. rewrite Z.mod_small; lia. Qed.
Lemma wrap64_over z : max_i64 < z <= 2 * max_i64 + 1 -> wrap64 z = z - 2 ^ 64.
Proof.
  unfold wrap64, max_i64; intros H.
  replace (z + 2 ^ 63) with ((z + 2 ^ 63 - 2 ^ 64) + 1 * 2 ^ 64) by lia.
  rewrite Z.mod_add by lia. rewrite Z.mod_small; lia.
Qed.
Lemma wrap64_range z : min_i64 <= wrap64 z <= max_i64.
Proof.
  unfold wrap64, min_i64, max_i64.
  pose proof (Z.mod_pos_bound (z + 2 ^ 63) (2 ^ 64) ltac:(lia)). lia.
Qed.
Lemma wrap32_id z : - 2 ^ 31 <= z < 2 ^ 31 -> wrap32 z = z.
Proof. unfold wrap32; intros H. rewrite Z.mod_small; lia. Qed.

Lemma slice_ok {A} (l : list A) i j :
  0 <= i <= j -> j <= zlen l ->
  slice l i j = Some (take (Z.to_nat (j - i)) (drop (Z.to_nat i) l)).
Proof.
  intros H1 H2. unfold slice.
  destruct (0 <=? i) eqn:?, (i <=? j) eqn:?, (j <=? zlen l) eqn:?; cbn; try lia; done.
Qed.
Lemma slice_inv {A} (l : list A) i j s :
  slice l i j = Some s ->
  0 <= i <= j /\ j <= zlen l /\ s = take (Z.to_nat (j - i)) (drop (Z.to_nat i) l).
Proof.
  unfold slice. destruct (0 <=? i) eqn:?, (i <=? j) eqn:?, (j <=? zlen l) eqn:?; cbn; try done.
  intros [= <-]. repeat split; try lia.
Qed.
Lemma slice_len {A} (l : list A) i j s : slice l i j = Some s -> zlen s = j - i.
Proof.
  intros H. apply slice_inv in H as (H1 & H2 & ->).
  rewrite zlen_take, zlen_drop. lia.
Qed.
Lemma slice_0 {A} (l : list A) j : 0 <= j <= zlen l -> slice l 0 j = Some (take (Z.to_nat j) l).
Proof. intros H. rewrite slice_ok by lia. rewrite Z.sub_0_r. done. Qed.

Lemma go_copy_same {A} (dst src : list A) : length dst = length src -> go_copy dst src = src.
Proof.
  intros H. unfold go_copy. rewrite H, firstn_all, <- H, skipn_all. apply app_nil_r.
Qed.

Lemma copy_into_ok {A} (p : list A) n src :
  0 <= n <= zlen p -> zlen src = n ->
  copy_into p 0 n src = Some (src ++ drop (Z.to_nat n) p).
Proof.
  intros H1 H2. unfold copy_into. rewrite slice_0 by done. f_equal.
  rewrite take_0, app_nil_l. f_equal. apply go_copy_same.
  rewrite take_length. unfold zlen in *. lia.
Qed.

Lemma fit_length p q : length (fit p q) = length p.
Proof. unfold fit. rewrite take_length, app_length, drop_length. lia. Qed.
Lemma fit_same p q : length q = length p -> fit p q = q.
Proof.
  intros H. unfold fit. rewrite take_app_le by lia. rewrite <- H. apply take_ge. lia.
Qed.
Lemma zlen_fit p q : zlen (fit p q) = zlen p.
Proof. unfold zlen. rewrite fit_length. done. Qed.

Section Facts.
Context {W : Type} (E : env W).
Implicit Types h : heap W.

Lemma run_bind {A B} (m : prog A) (k : A -> prog B) h :
  run E h (bind m k) =
  match run E h m with
  | (h', ORet a) => run E h' (k a)
  | (h', OPanic e) => (h', OPanic e)
  | (h', OSpin) => (h', OSpin)
  end.
Proof.
  revert h. induction m as [a|e| |X a k' IH]; intros h; cbn [bind run]; try done.
  destruct (act_step E h a) as [[h' x]|]; [apply IH|done].
Qed.

Lemma run_deferred {A} (m : prog A) l h : run E h (deferred m (Unlock l)) = run E h m.
Proof.
  revert h. induction m as [a|e| |X a k' IH]; intros h; cbn [deferred run act_step]; try done.
  destruct (act_step E h a) as [[h' x]|]; [apply IH|done].
Qed.

Lemma run_locked {A} (m : prog A) l h : run E h (locked l m) = run E h m.
Proof. unfold locked. cbn [run act_step]. apply run_deferred. Qed.

Lemma run_ret {A} (a : A) h : run E h (Ret a) = (h, ORet a).
Proof. done. Qed.

Lemma run_of_option {A} e (o : option A) h :
  run E h (of_option e o) = match o with Some a => (h, ORet a) | None => (h, OPanic e) end.
Proof. destruct o; done. Qed.

Lemma run_assert b h : run E h (assert b) = (h, if b then ORet tt else OPanic PAssert).
Proof. destruct b; done. Qed.

Lemma run_ldEmpty h i b : h_b h !! i = Some (BEmpty b) -> run E h (ldEmpty i) = (h, ORet b).
Proof. intros H. cbn. rewrite H. done. Qed.
Lemma run_ldBytes h i b : h_b h !! i = Some (BBytes b) -> run E h (ldBytes i) = (h, ORet b).
Proof. intros H. cbn. rewrite H. done. Qed.
Lemma run_ldSeeker h i b : h_b h !! i = Some (BSeeker b) -> run E h (ldSeeker i) = (h, ORet b).
Proof. intros H. cbn. rewrite H. done. Qed.
Lemma run_ldReaderAt h i b : h_b h !! i = Some (BReaderAt b) -> run E h (ldReaderAt i) = (h, ORet b).
Proof. intros H. cbn. rewrite H. done. Qed.
Lemma run_ldBuffered h i b : h_b h !! i = Some (BBuffered b) -> run E h (ldBuffered i) = (h, ORet b).
Proof. intros H. cbn. rewrite H. done. Qed.
Lemma run_ldSeekerC h i b : h_c h !! i = Some (CSeeker b) -> run E h (ldSeekerC i) = (h, ORet b).
Proof. intros H. cbn. rewrite H. done. Qed.
Lemma run_ldReaderAtC h i b : h_c h !! i = Some (CReaderAt b) -> run E h (ldReaderAtC i) = (h, ORet b).
Proof. intros H. cbn. rewrite H. done. Qed.
Lemma run_ldBufferedC h i b : h_c h !! i = Some (CBuffered b) -> run E h (ldBufferedC i) = (h, ORet b).
Proof. intros H. cbn. rewrite H. done. Qed.

Lemma run_StoreB h i b x :
  h_b h !! i = Some x -> run E h (perform (StoreB i b)) = (set_b h (<[i := b]> (h_b h)), ORet tt).
Proof. intros H. cbn. rewrite H. done. Qed.
Lemma run_StoreC h i b x :
  h_c h !! i = Some x -> run E h (perform (StoreC i b)) = (set_c h (<[i := b]> (h_c h)), ORet tt).
Proof. intros H. cbn. rewrite H. done. Qed.
Lemma run_NewB h b : run E h (perform (NewB b)) = (set_b h (h_b h ++ [b]), ORet (length (h_b h))).
Proof. done. Qed.
Lemma run_NewC h b : run E h (perform (NewC b)) = (set_c h (h_c h ++ [b]), ORet (length (h_c h))).
Proof. done. Qed.
Lemma run_Caps h r : run E h (perform (Caps r)) = (h, ORet (ev_caps E r)).
Proof. done. Qed.

Lemma run_rint h m : run E h (rint m) =
  match run E h m with (h', ORet a) => (h', ORet (RInt a)) | (h', OPanic e) => (h', OPanic e) | (h', OSpin) => (h', OSpin) end.
Proof. unfold rint. rewrite run_bind. destruct (run E h m) as [? []]; done. Qed.
Lemma run_rread h m : run E h (rread m) =
  match run E h m with (h', ORet (n, p, e)) => (h', ORet (RRead n p e)) | (h', OPanic e) => (h', OPanic e) | (h', OSpin) => (h', OSpin) end.
Proof. unfold rread. rewrite run_bind. destruct (run E h m) as [? [[[] ?]| |]]; done. Qed.
Lemma run_rerr h m : run E h (rerr m) =
  match run E h m with (h', ORet a) => (h', ORet (RErr a)) | (h', OPanic e) => (h', OPanic e) | (h', OSpin) => (h', OSpin) end.
Proof. unfold rerr. rewrite run_bind. destruct (run E h m) as [? []]; done. Qed.
Lemma run_rseek h m : run E h (rseek m) =
  match run E h m with (h', ORet (n, e)) => (h', ORet (RSeek n e)) | (h', OPanic e) => (h', OPanic e) | (h', OSpin) => (h', OSpin) end.
Proof. unfold rseek. rewrite run_bind. destruct (run E h m) as [? [[]| |]]; done. Qed.
Lemma run_rwriteto h m : run E h (rwriteto m) =
  match run E h m with (h', ORet (n, e)) => (h', ORet (RWriteTo n e)) | (h', OPanic e) => (h', OPanic e) | (h', OSpin) => (h', OSpin) end.
Proof. unfold rwriteto. rewrite run_bind. destruct (run E h m) as [? [[]| |]]; done. Qed.
Lemma run_rbody h m : run E h (rbody m) =
  match run E h m with (h', ORet (n, e)) => (h', ORet (RBody n e)) | (h', OPanic e) => (h', OPanic e) | (h', OSpin) => (h', OSpin) end.
Proof. unfold rbody. rewrite run_bind. destruct (run E h m) as [? [[]| |]]; done. Qed.
Lemma run_rreader h m : run E h (rreader m) =
  match run E h m with (h', ORet a) => (h', ORet (RReader a)) | (h', OPanic e) => (h', OPanic e) | (h', OSpin) => (h', OSpin) end.
Proof. unfold rreader. rewrite run_bind. destruct (run E h m) as [? []]; done. Qed.

Lemma set_b_twice h a b : set_b (set_b h a) b = set_b h b. Proof. done. Qed.
Lemma set_c_twice h a b : set_c (set_c h a) b = set_c h b. Proof. done. Qed.

End Facts.
