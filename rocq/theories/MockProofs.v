(** * MockReader: proofs *)
From Verif Require Export MockSpec.
From Coq Require Import ZifyBool.

Section Proofs.
Context {F : Type}.
Implicit Types (x : expectation F) (l : line F).

Lemma written_ok l x : written l = Some x -> match l with LRead p n _ | LReadAt p _ n _ => 0 <= n <= zlen p | _ => True end.
Proof. destruct l; cbn; try done; unfold expectRead, expectReadAt; destruct (_ && _) eqn:H; try done; lia. Qed.
Lemma constructor_checks p n err : (exists x, @expectRead F p n err = Some x) <-> 0 <= n <= zlen p.
Proof. unfold expectRead. destruct (_ && _) eqn:H; split; try lia; try (intros [??]; done); eauto. Qed.
Lemma constructor_checks_at p off n err : (exists x, @expectReadAt F p off n err = Some x) <-> 0 <= n <= zlen p.
Proof. unfold expectReadAt. destruct (_ && _) eqn:H; split; try lia; try (intros [??]; done); eauto. Qed.

Lemma fill x p : 0 <= x_output0 x <= zlen (x_input0 x) -> length p = length (x_input0 x) ->
  mfill x p = MBytes (x_output0 x) (take (Z.to_nat (x_output0 x)) (x_input0 x) ++ drop (Z.to_nat (x_output0 x)) p) (x_output2 x).
Proof.
  destruct x as [op i0 i1 i2 i3 n o1 o2]; cbn. unfold mfill, zlen; cbn. intros Hn Hp.
  destruct (n >? 0) eqn:Hz; [|replace n with 0 by lia; done].
  unfold copy_into, slice, zlen. replace ((0 <=? 0) && (0 <=? n) && (n <=? Z.of_nat (length i0))) with true by lia.
  replace ((0 <=? 0) && (0 <=? n) && (n <=? Z.of_nat (length p))) with true by lia. cbn. rewrite !drop_0, Z.sub_0_r. f_equal.
  unfold go_copy. rewrite !take_length, take_take, drop_ge by (rewrite take_length; lia).
  rewrite app_nil_r. by replace ((Z.to_nat n `min` length p) `min` Z.to_nat n)%nat with (Z.to_nat n) by lia.
Qed.

(** The call at a line. *)
Lemma at_line (m : mockReader F) l x c : mk_expect m !! mk_index m = Some x -> written l = Some x ->
  exists o, mdo (Some m) c = (Some (Mock (mk_expect m) (S (mk_index m))), o) /\
    (answers l c o \/ complains (mk_index m) x o /\ forall o', ~ answers l c o').
Proof.
  intros Hx Hl. pose proof (written_ok l x Hl) as Hok.
  assert (Hm : mnext (Some m) = (Some (Mock (mk_expect m) (S (mk_index m))), (mk_index m, x))) by (cbn; by rewrite Hx).
  unfold mdo. rewrite Hm.
  destruct c, l; cbn in Hl; try (injection Hl as <-);
    try (unfold expectRead in Hl; destruct (_ && _); [|done]; injection Hl as <-);
    try (unfold expectReadAt in Hl; destruct (_ && _); [|done]; injection Hl as <-);
    (eexists; split; [reflexivity|]); cbn;
    match goal with |- context [matches ?a ?b] => destruct (matches a b) eqn:Hma end; unfold matches in Hma; cbn in Hma; try done;
    try (right; split; [by eexists|]; intros o' Ho; inversion Ho; subst; unfold zlen in *; lia);
    try (left; constructor; fail).
  all: repeat (apply andb_prop in Hma as [Hma ?]).
  all: try (left; rewrite fill; [constructor|..]; cbn; unfold zlen in *; lia).
  all: try (left; replace offset0 with offset in * by lia; rewrite fill; [constructor|..]; cbn; unfold zlen in *; lia).
  all: try (left; replace offset0 with offset by lia; replace whence0 with whence by lia; constructor).
  1: (left; case_bool_decide; [|done]; subst; constructor).
  all: right; split; [by eexists|]; intros o' Ho; inversion Ho; subst; rewrite !bool_decide_eq_true_2 in Hma by done; unfold zlen in Hma; lia.
Qed.
Lemma past_end (m : mockReader F) c : mk_expect m !! mk_index m = None -> exists o, mdo (Some m) c = (Some m, o) /\ complains (length (mk_expect m)) zeroExpectation o.
Proof.
  intros Hx. assert (Hm : mnext (Some m) = (Some m, (length (mk_expect m), zeroExpectation))) by (cbn; by rewrite Hx).
  unfold mdo. rewrite Hm. destruct c; (eexists; split; [reflexivity|]); by eexists.
Qed.

(** The number of lines left behind after [i] calls. *)
Lemma run_at xs ls cs : Forall2 (fun l x => written l = Some x) ls xs -> forall k, (k <= length xs)%nat -> forall i c, cs !! i = Some c ->
  exists o, mrun (Some (Mock xs k)) cs !! i = Some o /\
    match ls !! (k + i)%nat, xs !! (k + i)%nat with
    | Some l, Some x => answers l c o \/ complains (k + i) x o /\ forall o', ~ answers l c o'
    | _, _ => complains (length xs) zeroExpectation o
    end.
Proof.
  intros Hw. induction cs as [|c0 cs IH]; intros k Hk i c Hi; [done|]. cbn [mrun].
  destruct (xs !! k) as [x|] eqn:Hx.
  - destruct (Forall2_lookup_r _ _ _ _ _ Hw Hx) as (l & Hl & Hlx).
    destruct (at_line (Mock xs k) l x c0 Hx Hlx) as (o & Hd & Ho). rewrite Hd. cbn [mk_expect mk_index] in *.
    destruct i as [|i]; cbn in Hi.
    + injection Hi as <-. exists o. split; [done|]. replace (k + 0)%nat with k by lia. by rewrite Hl, Hx.
    + apply lookup_lt_Some in Hx. destruct (IH (S k) ltac:(lia) i c Hi) as (o' & Ho' & H). exists o'. split; [done|].
      by replace (k + S i)%nat with (S k + i)%nat by lia.
  - destruct (past_end (Mock xs k) c0 Hx) as (o & Hd & Ho). rewrite Hd. cbn [mk_expect] in *.
    assert (forall j, ls !! (k + j)%nat = None) as Hnone.
    { intros j. apply lookup_ge_None. rewrite (Forall2_length _ _ _ Hw). apply lookup_ge_None in Hx. lia. }
    destruct i as [|i]; cbn in Hi.
    + injection Hi as <-. exists o. split; [done|]. by rewrite Hnone.
    + destruct (IH k Hk i c Hi) as (o' & Ho' & H). exists o'. split; [done|]. rewrite Hnone in H |- *. exact H.
Qed.

Theorem each_call ls xs cs i c : Forall2 (fun l x => written l = Some x) ls xs -> cs !! i = Some c ->
  exists o, mrun (Some (newMock xs)) cs !! i = Some o /\
    match ls !! i, xs !! i with
    | Some l, Some x => answers l c o \/ complains i x o /\ forall o', ~ answers l c o'
    | _, _ => complains (length ls) zeroExpectation o
    end.
Proof.
  intros Hw Hi. rewrite (Forall2_length _ _ _ Hw). apply (run_at xs ls cs Hw 0%nat); [lia|done].
Qed.

Lemma run_length r cs : length (@mrun F r cs) = length cs.
Proof. revert r. induction cs as [|c cs IH]; intros r; [done|]. cbn. destruct (mdo r c) as [r' o]. cbn. by rewrite IH. Qed.
Lemma answers_fun l c o o' : answers l c o -> answers l c o' -> o = o'.
Proof. by destruct 1; inversion 1; subst. Qed.
Lemma answers_no_panic l c o : answers l c o -> ~ is_panic o.
Proof. by destruct 1; intros [|(? & ? & ? & ?)]. Qed.

Theorem accepts ls xs cs : Forall2 (fun l x => written l = Some x) ls xs ->
  Forall (fun o => ~ is_panic o) (mrun (Some (newMock xs)) cs) <->
  exists os, Forall2 (fun lc o => answers lc.1 lc.2 o) (zip ls cs) os /\ (length cs <= length ls)%nat.
Proof.
  intros Hw. split.
  - intros Hf. exists (mrun (Some (newMock xs)) cs).
    assert (Hlen : (length cs <= length ls)%nat).
    { destruct (decide (length cs <= length ls)%nat) as [|Hn]; [done|]. exfalso.
      destruct (lookup_lt_is_Some_2 cs (length ls) ltac:(lia)) as [c Hc]. destruct (each_call ls xs cs _ c Hw Hc) as (o & Ho & H).
      rewrite (lookup_ge_None_2 ls) in H by lia. eapply Forall_lookup_1 in Ho; [|exact Hf]. apply Ho. right. eauto. }
    split; [|done]. apply Forall2_same_length_lookup. split; [rewrite zip_with_length, run_length; lia|].
    intros i [l c] o Hi Ho. apply lookup_zip_with_Some in Hi as (l' & c' & [= -> ->] & Hl & Hc).
    destruct (each_call ls xs cs i c' Hw Hc) as (o' & Ho' & H). rewrite Ho in Ho'. injection Ho' as <-. rewrite Hl in H.
    destruct (Forall2_lookup_l _ _ _ _ _ Hw Hl) as (x & Hx & _). rewrite Hx in H. destruct H as [|[Hp _]]; [done|].
    exfalso. eapply Forall_lookup_1 in Ho; [|exact Hf]. apply Ho. right. eauto.
  - intros (os & Hf & Hlen). apply Forall_lookup_2. intros i o Ho.
    assert (Hi : (i < length cs)%nat) by (rewrite <- (run_length (Some (newMock xs))); by eapply lookup_lt_Some).
    destruct (lookup_lt_is_Some_2 cs i Hi) as [c Hc]. destruct (lookup_lt_is_Some_2 ls i ltac:(lia)) as [l Hl].
    destruct (each_call ls xs cs i c Hw Hc) as (o' & Ho' & H). rewrite Ho in Ho'. injection Ho' as <-. rewrite Hl in H.
    destruct (Forall2_lookup_l _ _ _ _ _ Hw Hl) as (x & Hx & _). rewrite Hx in H.
    assert (Hz : zip ls cs !! i = Some (l, c)) by (apply lookup_zip_with_Some; eauto).
    destruct (Forall2_lookup_l _ _ _ _ _ Hf Hz) as (o' & _ & Ha). cbn in Ha.
    destruct H as [H|[_ H]]; [by eapply answers_no_panic|by destruct (H o')].
Qed.

Theorem nil_mock cs i c : cs !! i = Some c ->
  exists o, @mrun F None cs !! i = Some o /\ match c with MMark _ => o = MUnit | _ => complains 0 zeroExpectation o end.
Proof.
  revert i. induction cs as [|c0 cs IH]; intros i Hi; [done|].
  assert (H0 : exists o, @mdo F None c0 = (None, o) /\ match c0 with MMark _ => o = MUnit | _ => complains 0 zeroExpectation o end).
  { destruct c0; (eexists; split; [reflexivity|]); try done; by eexists. }
  destruct H0 as (o & Hd & Ho). cbn [mrun]. rewrite Hd. destruct i as [|i]; cbn in *; [injection Hi as <-; eauto|]. by apply IH.
Qed.
End Proofs.
