(** * In-memory bodies refine ideal cursors (proofs) *)
From stdpp Require Import gmap.
From Coq Require Import ZifyBool.
From Verif Require Export Frame Spec.

Ltac rs1 :=
  first [ rewrite run_locked | rewrite run_bind | rewrite run_ret | rewrite run_of_option
        | rewrite run_assert | rewrite run_rint | rewrite run_rread | rewrite run_rerr
        | rewrite run_rseek | rewrite run_rwriteto | rewrite run_rbody | rewrite run_rreader
        | rewrite run_NewB | rewrite run_NewC | rewrite run_Caps
        | erewrite run_ldEmpty by (cbn [h_b h_c set_b set_c emit]; eassumption) | erewrite run_ldBytes by (cbn [h_b h_c set_b set_c emit]; eassumption)
        | erewrite run_ldSeeker by (cbn [h_b h_c set_b set_c emit]; eassumption) | erewrite run_ldReaderAt by (cbn [h_b h_c set_b set_c emit]; eassumption)
        | erewrite run_ldBuffered by (cbn [h_b h_c set_b set_c emit]; eassumption) | erewrite run_ldSeekerC by (cbn [h_b h_c set_b set_c emit]; eassumption)
        | erewrite run_ldReaderAtC by (cbn [h_b h_c set_b set_c emit]; eassumption) | erewrite run_ldBufferedC by (cbn [h_b h_c set_b set_c emit]; eassumption)
        | erewrite run_StoreB by (cbn [h_b h_c set_b set_c emit]; eassumption) | erewrite run_StoreC by (cbn [h_b h_c set_b set_c emit]; eassumption) ].
Ltac rs := repeat (rs1; cbv beta iota zeta; cbn [fst snd]).

Ltac gif := match goal with |- context [if ?x then _ else _] => destruct x eqn:? end.

(** Splitting the bytes delivered by a read. *)
Lemma read_at_Z (d : bytes) pos p n err :
  (pos <= length d)%nat ->
  n = Z.min (zlen p) (zlen d - Z.of_nat pos) ->
  err = (if zlen p >? zlen d - Z.of_nat pos then Some EOF else None) ->
  read_at d false pos p (Z.to_nat n) err.
Proof.
  unfold read_at, zlen. intros H -> ->.
  split_and!.
  - lia.
  - intros. gif; [lia|done].
  - intros. gif; [done|lia].
  - intros. left. gif; [lia|done].
Qed.

(** The two cases of Seek. *)
Lemma seek_ok len pos off wh :
  0 <= pos <= max_i64 -> 0 <= len <= max_i64 -> in_i64 off ->
  seek_to len pos off wh =
    (if (wh =? SeekStart) && (off <? 0) then (-1, Some (NegativeStartOffset off)) else
     if negb ((wh =? SeekStart) || (wh =? SeekCurrent) || (wh =? SeekEnd)) then (-1, Some (UnknownWhence wh)) else
     let off' := if wh =? SeekCurrent then wrap64 (off + pos)
                 else if wh =? SeekEnd then wrap64 (off + len) else off in
     if off' <? 0 then (-1, Some (NegativeComputedOffset off')) else
     ((if off' >? len then len else off'), None)).
Proof.
  intros Hp Hl Ho. unfold seek_to, SeekStart, SeekCurrent, SeekEnd, in_i64 in *.
  destruct ((wh =? 0) && (off <? 0)) eqn:H0; [done|].
  destruct ((wh <? 0) || (2 <? wh)) eqn:H1.
  { destruct (negb _) eqn:H2; [done|lia]. }
  destruct (negb _) eqn:H2; [lia|].
  cbv zeta.
  assert (Hw : forall b, 0 <= b <= max_i64 ->
     (if max_i64 <? b + off then (-1, Some (NegativeComputedOffset (b + off - 2 ^ 64)))
      else if b + off <? 0 then (-1, Some (NegativeComputedOffset (b + off)))
      else (Z.min (b + off) len, None)) =
     (if wrap64 (off + b) <? 0 then (-1, Some (NegativeComputedOffset (wrap64 (off + b))))
      else ((if wrap64 (off + b) >? len then len else wrap64 (off + b)), None))).
  { intros b Hb. unfold min_i64, max_i64 in *. rewrite (Z.add_comm off b).
    destruct (2 ^ 63 - 1 <? b + off) eqn:Hov.
    - rewrite wrap64_over by (unfold max_i64; lia).
      gif; [done|lia].
    - rewrite wrap64_id by (unfold min_i64, max_i64; lia).
      gif; [done|]. f_equal. gif; lia. }
  destruct (wh =? 1) eqn:E1; [rewrite Hw by lia; done|].
  destruct (wh =? 2) eqn:E2; [rewrite Hw by lia; done|].
  rewrite Hw by (unfold max_i64; lia). rewrite Z.add_0_r.
  unfold min_i64, max_i64 in *. rewrite wrap64_id by (unfold min_i64, max_i64; lia). done.
Qed.

Definition mem_rel (F : family) (st : cursor) (o : bobj) : Prop :=
  match fam_flavour F with
  | FEmpty =>
      fam_data F = [] /\
      match st with
      | Shut => exists e, o = BEmpty {| em_eof := e; em_closed := true |}
      | At pos e => pos = 0%nat /\ o = BEmpty {| em_eof := e; em_closed := false |}
      end
  | FBytes =>
      zlen (fam_data F) <= max_i64 /\
      match st with
      | Shut => exists d k e, o = BBytes {| by_data := d; by_offset := k; by_eof := e; by_closed := true |}
      | At pos e => (pos <= length (fam_data F))%nat /\
          o = BBytes {| by_data := fam_data F; by_offset := Z.of_nat pos; by_eof := e; by_closed := false |}
      end
  | FReader _ _ => False
  end.

Section Mem.
Context {W : Type} (E : env W) (fuel : nat).
Implicit Types h : heap W.

(** What a call on an in-memory handle does, to be matched with [fam_step]. *)
Definition mem_post (F : family) h i st f h' (o : out res) : Prop :=
  match o with
  | ORet x => exists st', ideal F st f st' x /\
      (exists o', h_b h' !! i = Some o' /\ mem_rel F st' o') /\
      match st, f, x with
      | At _ _, Copy, RBody j _ => st' = st /\ j = length (h_b h) /\ exists o'', h_b h' !! j = Some o'' /\ mem_rel F st o''
      | _, _, _ => True
      end
  | OPanic _ => (exists w, f = WriteTo w) /\ h_b h' !! i = h_b h !! i
  | OSpin => False
  end.

Lemma lookup_set_b h i x (y : bobj) : h_b h !! i = Some x -> h_b (set_b h (<[i:=y]> (h_b h))) !! i = Some y.
Proof. intros H. cbn. apply list_lookup_insert. by eapply lookup_lt_Some. Qed.
Lemma lookup_new_b h (y : bobj) : h_b (set_b h (h_b h ++ [y])) !! length (h_b h) = Some y.
Proof. cbn. rewrite lookup_app_r by lia. rewrite Nat.sub_diag. done. Qed.
Lemma lookup_new_b_old h i x (y : bobj) : h_b h !! i = Some x -> h_b (set_b h (h_b h ++ [y])) !! i = Some x.
Proof. intros H. cbn. apply lookup_app_l_Some. done. Qed.

Definition seek_in (f : op) : Prop := match f with Seek off _ => in_i64 off | _ => True end.
Lemma go_seek_in f : go_op f -> seek_in f.
Proof. destruct f; cbn; tauto. Qed.

Lemma mem_empty h i F st o f :
  fam_flavour F = FEmpty -> h_b h !! i = Some o -> mem_rel F st o -> seek_in f ->
  let '(h', out) := run E h (method fuel o i f) in mem_post F h i st f h' out.
Proof.
  intros HF Hi Hrel Hgo. unfold mem_rel in Hrel. rewrite HF in Hrel.
  destruct F as [fl d]; cbn in HF, Hrel; subst fl. destruct Hrel as [-> Hrel].
  destruct st as [|pos e].
  - destruct Hrel as [e ->]. destruct f; cbn [method];
      unfold empty_BytesRemaining, empty_Read, empty_Close, empty_Seek, empty_ReadAt, empty_WriteTo, empty_Copy, empty_Unwrap;
      rs; cbn [em_closed]; rs; cbn [mem_post]; exists Shut; (split; [done|]); (split; [|done]);
      eexists; (split; [done|]); cbn; eauto.
  - destruct Hrel as [-> ->].
    assert (Hsame : exists o', h_b h !! i = Some o' /\ mem_rel {| fam_flavour := FEmpty; fam_data := [] |} (At 0 e) o').
    { eexists; split; [done|]. cbn. eauto. }
    destruct f; cbn [method];
      unfold empty_BytesRemaining, empty_Read, empty_Close, empty_Seek, empty_ReadAt, empty_WriteTo, empty_Copy, empty_Unwrap;
      rs; cbn [em_closed em_eof]; rs; cbn [mem_post].
    + exists (At 0 e). done.
    + destruct e.
      { cbn [orb]. rs. cbn [mem_post]. exists (At 0 true). split_and!; [done| |done].
        eexists; split; [by eapply lookup_set_b|]. cbn; eauto. }
      cbn [orb]. destruct (zlen p >? 0) eqn:Hp; rs; cbn [mem_post].
      * exists (At 0 true). split_and!; [|..].
        { cbn. exists 0%nat, (Some EOF). split_and!; try done.
          unfold read_at, zlen in *; cbn; split_and!; try done; lia. }
        { eexists; split; [by eapply lookup_set_b|]. cbn; eauto. }
        { done. }
      * exists (At 0 false). split_and!; [|..].
        { cbn. exists 0%nat, None. split_and!; try done.
          unfold read_at, zlen in *; cbn; split_and!; try done; try lia. eauto. }
        { eexists; split; [eassumption|]. cbn; eauto. }
        { done. }
    + cbn [mem_post]. exists Shut. split_and!; [cbn; eauto| |done].
      eexists; split; [by eapply lookup_set_b|]. cbn; eauto.
    + cbn in Hgo. cbn [mem_post].
      pose proof (seek_ok 0 0 offset whence ltac:(unfold max_i64; lia) ltac:(unfold max_i64; lia) Hgo) as Hs.
      cbv zeta in Hs. rewrite Z.add_0_r in Hs.
      assert (Hw : wrap64 offset = offset).
      { apply wrap64_id. exact Hgo. }
      rewrite Hw in Hs.
      destruct ((whence =? SeekStart) && (offset <? 0)); rs; cbn [mem_post].
      { exists (At 0 e). cbn [ideal fam_data length]. change (Z.of_nat 0) with 0. rewrite Hs. done. }
      destruct (negb _); rs; cbn [mem_post].
      { exists (At 0 e). cbn [ideal fam_data length]. change (Z.of_nat 0) with 0. rewrite Hs. done. }
      replace (if whence =? SeekCurrent then offset else if whence =? SeekEnd then offset else offset)
        with offset in Hs by (repeat gif; done).
      destruct (offset <? 0) eqn:Hneg; rs; cbn [mem_post].
      { exists (At 0 e). cbn [ideal fam_data length]. change (Z.of_nat 0) with 0. rewrite Hs. done. }
      exists (At 0 false). cbn [ideal fam_data length]. change (Z.of_nat 0) with 0. rewrite Hs.
      assert ((if offset >? 0 then 0 else offset) = 0) as -> by (gif; lia).
      split_and!; try done. eexists; split; [by eapply lookup_set_b|]. cbn; eauto.
    + destruct (zlen p >? 0) eqn:Hp; rs; cbn [mem_post]; exists (At 0 e);
        (split_and!; [|done|done]); cbn; (split; [done|]); rewrite andb_false_r.
      * exists 0%nat, (Some EOF). split; [|by destruct (Z.to_nat _)].
        unfold read_at, zlen in *; cbn; split_and!; try done; lia.
      * exists 0%nat, None. split; [|by destruct (Z.to_nat _)].
        unfold read_at, zlen in *; cbn; split_and!; try done; try lia. eauto.
    + exists (At 0 e). done.
    + exists (At 0 e). split; [cbn; eauto|]. split.
      * eexists; split; [by eapply lookup_new_b_old|]. cbn; eauto.
      * split; [done|]. split; [done|]. eexists; split; [by apply lookup_new_b|]. cbn; eauto.
    + exists (At 0 e). done.
Qed.

Lemma src_filled (d : bytes) pos n p :
  (pos <= length d)%nat -> 0 <= n <= zlen p -> n <= zlen d - Z.of_nat pos ->
  slice d (Z.of_nat pos) (Z.of_nat pos + n) = Some (take (Z.to_nat n) (drop pos d)) /\
  copy_into p 0 n (take (Z.to_nat n) (drop pos d)) = Some (filled d pos (Z.to_nat n) p).
Proof.
  intros H1 H2 H3. split.
  - rewrite slice_ok by lia. do 2 f_equal; [|f_equal]; lia.
  - rewrite copy_into_ok; [done|done|]. rewrite zlen_take, zlen_drop. lia.
Qed.

Lemma mem_bytes h i F st o f :
  fam_flavour F = FBytes -> h_b h !! i = Some o -> mem_rel F st o -> seek_in f ->
  let '(h', out) := run E h (method fuel o i f) in mem_post F h i st f h' out.
Proof.
  intros HF Hi Hrel Hgo. unfold mem_rel in Hrel. rewrite HF in Hrel.
  destruct F as [fl d]; cbn in HF, Hrel; subst fl. destruct Hrel as [Hd Hrel].
  destruct st as [|pos e].
  - destruct Hrel as (d' & k & e & ->). destruct f; cbn [method];
      unfold bytes_BytesRemaining, bytes_Read, bytes_Close, bytes_Seek, bytes_ReadAt, bytes_WriteTo, bytes_Copy, bytes_Unwrap;
      rs; cbn [by_closed]; rs; cbn [mem_post]; exists Shut; (split; [done|]); (split; [|done]);
      eexists; (split; [done|]); cbn; eauto.
  - destruct Hrel as [Hpos ->].
    set (F := {| fam_flavour := FBytes; fam_data := d |}).
    assert (Hsame : exists o', h_b h !! i = Some o' /\ mem_rel F (At pos e) o').
    { eexists; split; [done|]. cbn. eauto. }
    assert (Hst : forall pos' e', (pos' <= length d)%nat ->
      exists o', h_b (set_b h (<[i := BBytes {| by_data := d; by_offset := Z.of_nat pos'; by_eof := e'; by_closed := false |}]> (h_b h))) !! i = Some o' /\ mem_rel F (At pos' e') o').
    { intros pos' e' Hp'. eexists; split; [by eapply lookup_set_b|]. cbn; eauto. }
    destruct f; cbn [method];
      unfold bytes_BytesRemaining, bytes_Read, bytes_Close, bytes_Seek, bytes_ReadAt, bytes_WriteTo, bytes_Copy, bytes_Unwrap;
      rs; cbn [by_closed by_eof by_data by_offset]; rs; cbn [mem_post].
    + exists (At pos e). done.
    + destruct e.
      { rs. cbn [mem_post]. exists (At pos true). done. }
      set (avail := zlen d - Z.of_nat pos).
      set (n := if zlen p >? avail then avail else zlen p).
      assert (Hn : n = Z.min (zlen p) avail) by (unfold n; gif; lia).
      pose proof (zlen_nonneg p) as Hp0. assert (0 <= avail) by (unfold avail, zlen; lia).
      pose proof (src_filled d pos n p Hpos ltac:(lia) ltac:(lia)) as [Hs1 Hs2].
      rs. rewrite Hs1. rs. rewrite Hs2. rs. cbn [mem_post].
      exists (At (pos + Z.to_nat n) (zlen p >? avail)).
      split_and!; [|..]; [| |done].
      * cbn [ideal]. exists (Z.to_nat n), (if zlen p >? avail then Some EOF else None).
        split; [by apply read_at_Z|]. split.
        { rewrite Z2Nat.id by lia. done. }
        destruct (zlen p >? avail); done.
      * replace (Z.of_nat pos + n) with (Z.of_nat (pos + Z.to_nat n)) by lia.
        apply Hst. unfold avail, zlen in *. lia.
    + exists Shut. split_and!; [cbn; eauto| |done].
      eexists; split; [by eapply lookup_set_b|]. cbn; eauto 6.
    + cbn in Hgo. unfold zlen in Hd.
      pose proof (seek_ok (Z.of_nat (length d)) (Z.of_nat pos) offset whence ltac:(lia) ltac:(lia) Hgo) as Hs.
      fold (zlen d) in Hs.
      destruct ((whence =? SeekStart) && (offset <? 0)); rs; cbn [mem_post].
      { exists (At pos e). cbn [ideal fam_data F]. fold (zlen d). rewrite Hs. done. }
      destruct (negb _); rs; cbn [mem_post].
      { exists (At pos e). cbn [ideal fam_data F]. fold (zlen d). rewrite Hs. done. }
      cbv zeta in Hs.
      set (off' := if whence =? SeekCurrent then _ else _) in *.
      destruct (off' <? 0) eqn:Hneg; rs; cbn [mem_post].
      { exists (At pos e). cbn [ideal fam_data F]. fold (zlen d). rewrite Hs. done. }
      set (off2 := if off' >? zlen d then zlen d else off') in *.
      exists (At (Z.to_nat off2) false).
      cbn [ideal fam_data F]. fold (zlen d). rewrite Hs.
      assert (0 <= off2 <= zlen d) by (pose proof (zlen_nonneg d); unfold off2; gif; lia).
      split_and!; try done.
      pose proof (Hst (Z.to_nat off2) false) as Hst'. rewrite Z2Nat.id in Hst' by lia. apply Hst'.
      unfold zlen in *; lia.
    + destruct (offset <? 0) eqn:Hneg; rs; cbn [mem_post].
      { exists (At pos e). cbn [ideal fam_data F]. rewrite Hneg. done. }
      set (off2 := if offset >? zlen d then zlen d else offset).
      assert (Ho2 : off2 = Z.min offset (zlen d)) by (unfold off2; gif; lia).
      assert (0 <= off2 <= zlen d) by (unfold zlen in *; lia).
      set (avail := zlen d - off2).
      set (n := if zlen p >? avail then avail else zlen p).
      assert (Hn : n = Z.min (zlen p) avail) by (unfold n; gif; lia).
      pose proof (zlen_nonneg p) as Hp0. assert (0 <= avail) by lia.
      pose proof (src_filled d (Z.to_nat off2) n p ltac:(unfold zlen in *; lia) ltac:(lia) ltac:(lia)) as [Hs1 Hs2].
      rewrite Z2Nat.id in Hs1 by lia.
      rs. rewrite Hs1. rs. rewrite Hs2. rs. cbn [mem_post].
      exists (At pos e). split_and!; [|done|done].
      cbn [ideal fam_data F]. fold (zlen d). rewrite Hneg. cbn [andb]. rewrite <- Ho2. split; [done|].
      exists (Z.to_nat n), (if zlen p >? avail then Some EOF else None).
      split.
      { apply read_at_Z; [unfold zlen in *; lia|lia|]. rewrite Z2Nat.id by lia. done. }
      rewrite Z2Nat.id by lia. done.
    + destruct e; [rs; cbn [mem_post]; exists (At pos true); done|].
      assert (Hs : slice d (Z.of_nat pos) (zlen d) = Some (drop pos d)).
      { rewrite slice_ok by (unfold zlen; lia). f_equal. rewrite Nat2Z.id.
        apply take_ge. rewrite drop_length. unfold zlen. lia. }
      rs. rewrite Hs.
      rewrite run_bind. unfold call_write. cbn [perform bind run act_step].
      destruct (ev_write E (h_w h) w (drop pos d)) as [w' [[n err]|pn]].
      2:{ cbn. split; [eauto|done]. }
      cbn [run]. rs.
      destruct (n >=? 0) eqn:Hn0; [|cbn; split; [eauto|done]].
      rs. destruct (n <=? zlen d - Z.of_nat pos) eqn:Hn1; [|cbn; split; [eauto|done]].
      cbn [run act_step emit h_b]. rewrite Hi. cbn [run]. rs. cbn [mem_post].
      exists (At (pos + Z.to_nat n) true). split_and!; [|..]; [| |done].
      * cbn [ideal fam_flavour F]. exists (Z.to_nat n), err.
        rewrite Z2Nat.id by lia. split_and!; try done. cbn [fam_data F]. unfold zlen in *. lia.
      * cbn [h_b set_b emit]. replace (Z.of_nat pos + n) with (Z.of_nat (pos + Z.to_nat n)) by lia.
        apply (Hst (pos + Z.to_nat n)%nat true). unfold zlen in *. lia.
    + exists (At pos e). split; [cbn; eauto|]. split.
      * eexists; split; [by eapply lookup_new_b_old|]. cbn; eauto.
      * split; [done|]. split; [done|]. eexists; split; [by apply lookup_new_b|]. cbn; eauto.
    + exists (At pos e). done.
Qed.

(** The family invariant. *)
Definition mem_inv (F : family) (t : table) h : Prop :=
  forall i st, t !! i = Some st -> exists o, h_b h !! i = Some o /\ mem_rel F st o.

Lemma mem_trace F cs : forall t h h' os,
  mem_inv F t h -> Forall go_cmd cs -> history E fuel h cs = (h', os) -> fam_trace F t cs os.
Proof.
  induction cs as [|c cs IH]; intros t h h' os Hinv Hgo Hh; [done|].
  cbn [history] in Hh. apply Forall_cons in Hgo as [Hgo1 Hgo].
  destruct (exec E fuel h c) as [h1 o] eqn:Hex.
  pose proof (exec_frame E fuel h c h1 o Hex) as [Hlen Hfr].
  destruct (match c with Call i _ => t !! i | _ => None end) as [st|] eqn:Hc.
  - destruct c as [i f| | | | | | |]; try done.
    destruct (Hinv i st Hc) as (ob & Hob & Hrel).
    assert (Hpost : mem_post F h i st f h1 o).
    { unfold exec, cmd_prog in Hex. rewrite Hob in Hex.
      destruct (fam_flavour F) eqn:Hfl.
      - pose proof (mem_empty h i F st ob f Hfl Hob Hrel (go_seek_in _ Hgo1)) as H. rewrite Hex in H. done.
      - pose proof (mem_bytes h i F st ob f Hfl Hob Hrel (go_seek_in _ Hgo1)) as H. rewrite Hex in H. done.
      - unfold mem_rel in Hrel. rewrite Hfl in Hrel. done. }
    assert (Hoth : forall j st', j <> i -> t !! j = Some st' -> exists o, h_b h1 !! j = Some o /\ mem_rel F st' o).
    { intros j st' Hj Ht. destruct (Hinv j st' Ht) as (oj & Hoj & Hrj). exists oj. split; [|done].
      apply Hfr; [congruence|done]. }
    destruct o as [x|e|]; cbn [mem_post] in Hpost; [| |done].
    + destruct Hpost as (st' & Hid & (o' & Ho' & Hr') & Hcopy).
      destruct (history E fuel h1 cs) as [h2 os'] eqn:Hh2. injection Hh as <- <-.
      cbn [fam_trace]. rewrite Hc.
      destruct (match st, f, x with At _ _, Copy, RBody j _ => Some j | _, _, _ => None end) as [j|] eqn:Hcp.
      * destruct st as [|pos e]; [done|]. destruct f; try done. destruct x; try done.
        injection Hcp as ->. destruct Hcopy as (-> & -> & o'' & Ho'' & Hr'').
        assert (Hfresh : t !! length (h_b h) = None).
        { destruct (t !! length (h_b h)) eqn:Ht; [|done].
          destruct (Hinv _ _ Ht) as (? & Hl & _). apply lookup_lt_Some in Hl. lia. }
        exists (<[length (h_b h) := At pos e]> t). split.
        { exists (At pos e), (At pos e). split_and!; done. }
        eapply IH; [|done|done]. intros j st Hj.
        destruct (decide (j = length (h_b h))) as [->|Hne].
        { rewrite lookup_insert in Hj. injection Hj as <-. eauto. }
        rewrite lookup_insert_ne in Hj by done.
        destruct (decide (j = i)) as [->|Hni]; [|by eapply Hoth].
        rewrite Hc in Hj. injection Hj as <-. eauto.
      * exists (<[i := st']> t). split.
        { exists st, st'. split_and!; try done. destruct st, f, x; done. }
        eapply IH; [|done|done]. intros j stj Hj.
        destruct (decide (j = i)) as [->|Hni].
        { rewrite lookup_insert in Hj. injection Hj as <-. eauto. }
        rewrite lookup_insert_ne in Hj by done. by eapply Hoth.
    + destruct Hpost as [Hw Hsame].
      destruct (history E fuel h1 cs) as [h2 os'] eqn:Hh2. injection Hh as <- <-.
      cbn [fam_trace]. rewrite Hc. split; [done|].
      eapply IH; [|done|done]. intros j stj Hj.
      destruct (decide (j = i)) as [->|Hni]; [|by eapply Hoth].
      rewrite Hsame. by apply Hinv.
  - assert (Hinv1 : mem_inv F t h1).
    { intros j st Hj. destruct (Hinv j st Hj) as (oj & Hoj & Hr). exists oj. split; [|done].
      apply Hfr; [|done]. intros f ->. congruence. }
    assert (Hskip : forall o os', fam_trace F t cs os' -> fam_trace F t (c :: cs) (o :: os')).
    { intros o' os' H. destruct c; cbn [fam_trace]; try done. rewrite Hc. done. }
    destruct o as [x|e|].
    + destruct (history E fuel h1 cs) as [h2 os'] eqn:Hh2. injection Hh as <- <-.
      apply Hskip. by eapply IH.
    + destruct (history E fuel h1 cs) as [h2 os'] eqn:Hh2. injection Hh as <- <-.
      apply Hskip. by eapply IH.
    + injection Hh as <- <-. apply Hskip. by destruct cs as [|[]].
Qed.

Lemma mem_new h d c :
  zlen d <= max_i64 ->
  (c = NewBytes d \/ (exists s, c = NewString s /\ String.list_ascii_of_string s = d) \/ (c = NewEmpty /\ d = [])) ->
  exists h1, exec E fuel h c = (h1, ORet (RBody (length (h_b h)) None)) /\
    mem_inv (mem_family d) {[ length (h_b h) := At 0 false ]} h1.
Proof.
  intros Hd Hc.
  assert (Hem : forall h', h' = set_b h (h_b h ++ [BEmpty {| em_eof := false; em_closed := false |}]) -> d = [] ->
     mem_inv (mem_family d) {[ length (h_b h) := At 0 false ]} h').
  { intros h' -> -> j st Hj. apply lookup_singleton_Some in Hj as [<- <-].
    eexists; split; [by apply lookup_new_b|]. done. }
  assert (Hby : forall h', h' = set_b h (h_b h ++ [BBytes {| by_data := d; by_offset := 0; by_eof := false; by_closed := false |}]) -> d <> [] ->
     mem_inv (mem_family d) {[ length (h_b h) := At 0 false ]} h').
  { intros h' -> Hne j st Hj. apply lookup_singleton_Some in Hj as [<- <-].
    eexists; split; [by apply lookup_new_b|]. destruct d; [done|].
    unfold mem_rel; cbn. split_and!; try done. lia. }
  destruct Hc as [->|[(s & -> & Hs)|[-> ->]]]; unfold exec, cmd_prog, rnew, FromBytes, FromString, Empty.
  - destruct d as [|a d].
    + cbn. eauto.
    + replace (zlen (a :: d) =? 0) with false by (rewrite zlen_cons; pose proof (zlen_nonneg d); lia).
      cbn. eexists; split; [done|]. by apply Hby.
  - destruct s as [|a s]; cbn in Hs; subst d.
    + cbn. eauto.
    + replace (Z.of_nat (String.length (String a s)) =? 0) with false by (cbn [String.length]; lia).
      cbn. eexists; split; [done|]. by apply Hby.
  - cbn. eauto.
Qed.

End Mem.
