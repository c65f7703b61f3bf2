(** * Seek, WriteTo and Empty: proofs of C09, C19, C20 and C21 *)
From stdpp Require Import gmap.
From Coq Require Import ZifyBool.
From Verif Require Export SeekSpec Any Proofs01 Witness.

Section Seek.
Context {W : Type} (E : env W) (fuel : nat).
Implicit Types h : heap W.

Lemma seek_call h i b :
  go_env E -> reaches E fuel h -> h_b h !! i = Some b -> open_seekable b = true ->
  exists len pos rem,
    0 <= len <= max_i64 /\ 0 <= pos <= max_i64 /\
    exec E fuel h (Call i BytesRemaining) = (h, ORet (RInt rem)) /\ (rem = len - pos \/ len <= pos /\ rem = 0) /\
    forall off whence, in_i64 off -> in_i64 whence ->
    exists n err, seek_to len pos off whence = (n, err) /\
    match err with
    | Some e => exec E fuel h (Call i (Seek off whence)) = (h, ORet (RSeek (-1) (Some e)))
    | None =>
        let h' := with_body h i (moved_to b n) in
        0 <= n <= len /\
        exec E fuel h (Call i (Seek off whence)) = (h', ORet (RSeek n None)) /\
        exec E fuel h' (Call i BytesRemaining) = (h', ORet (RInt (len - n)))
    end.
Proof.
  intros Hge Hr Hi Hop. destruct (reaches_wf E fuel h Hge Hr) as [Hwf Hfe].
  assert (Hlt : (i < length (h_b h))%nat) by (by eapply lookup_lt_Some).
  assert (Hrange : forall len pos off wh n, 0 <= len -> seek_to len pos off wh = (n, None) -> 0 <= n <= len).
  { intros len pos off wh n Hl. unfold seek_to. repeat gif; intros [= <-]; lia. }
  assert (Hneg1 : forall len pos off wh n e, seek_to len pos off wh = (n, Some e) -> n = -1).
  { intros len pos off wh n e. unfold seek_to. repeat gif; by intros [= <- <-]. }
  destruct b as [|b|b|b|b|b]; cbn in Hop; try done; apply negb_true_iff in Hop.
  - exists 0, 0, 0. unfold max_i64. split; [lia|]. split; [lia|]. split; [unfold exec; cbn; rewrite Hi; done|]. split; [by left|].
    intros off wh Hoff Hwh. pose proof (seek_ok 0 0 off wh ltac:(unfold max_i64; lia) ltac:(unfold max_i64; lia) Hoff) as Hs.
    cbv zeta in Hs. rewrite Z.add_0_r, wrap64_id in Hs by done. 
    replace (if wh =? SeekCurrent then off else if wh =? SeekEnd then off else off) with off in Hs by (repeat gif; done).
    unfold exec. cbn [cmd_prog]. rewrite Hi. cbn [method]. unfold empty_Seek. rs. rewrite Hop. rs. rewrite Hs.
    do 3 (gif; rs; [eexists _, _; done|]).
    assert ((if off >? 0 then 0 else off) = 0) as -> by (gif; lia). eexists _, _. split; [done|]. cbv zeta. split; [lia|].
    split; [unfold moved_to; rewrite Hop; done|]. cbn. rewrite list_lookup_insert by done. done.
  - pose proof (wf_b _ Hwf _ _ Hi) as [Hb1 Hb2].
    exists (zlen (by_data b)), (by_offset b), (zlen (by_data b) - by_offset b). split; [lia|]. split; [lia|].
    split. { unfold exec. cbn [cmd_prog]. rewrite Hi. cbn [method]. unfold bytes_BytesRemaining. rs. rewrite Hop. rs. done. }
    split; [by left|]. intros off wh Hoff Hwh.
    unfold exec. cbn [cmd_prog]. rewrite Hi. cbn [method]. unfold bytes_Seek. rs. rewrite Hop. rs.
    pose proof (seek_ok (zlen (by_data b)) (by_offset b) off wh ltac:(lia) ltac:(lia) Hoff) as Hs. cbv zeta in Hs.
    destruct (seek_to _ _ _ _) as [n err] eqn:Hst. exists n, err. split; [done|].
    assert (Hn : err = None -> 0 <= n <= zlen (by_data b)) by (intros ->; apply (Hrange _ _ _ _ _ (zlen_nonneg _) Hst)).
    destruct ((wh =? SeekStart) && (off <? 0)); rs; [by injection Hs as -> ->|]. destruct (negb _); rs; [by injection Hs as -> ->|].
    set (off' := if wh =? SeekCurrent then _ else _) in *. destruct (off' <? 0); rs; [by injection Hs as -> ->|].
    injection Hs as -> ->. cbv zeta. split; [by apply Hn|]. cbn [moved_to]. rewrite Hop. split; [done|].
    cbn. rewrite list_lookup_insert by done. cbn. rewrite list_lookup_insert by done. done.
  - destruct (sk_open_wf h i b Hwf Hi Hop) as (c & cm & r & Ho). pose proof Ho as [sk_b0 sk_ncl0 sk_c0 sk_cm0 sk_r0 sk_off0 sk_len0].
    exists (sc_length cm), (sb_offset b), (sc_length cm - sb_offset b). split; [done|]. split; [done|].
    unfold exec. cbn [cmd_prog]. rewrite Hi. cbn [method]. rewrite run_rint, (run_sk_BytesRemaining E _ _ _ _ _ _ Ho). split; [done|]. split; [by left|].
    intros off wh Hoff Hwh. rewrite run_rseek, (run_sk_Seek E _ _ _ _ _ _ _ _ Ho Hoff).
    destruct (seek_to (sc_length cm) _ _ _) as [n [e|]] eqn:Hst; eexists _, _; (split; [done|]); [by rewrite (Hneg1 _ _ _ _ _ _ Hst)|].
    apply Hrange in Hst; [|lia]. cbv zeta. split; [done|]. cbn [moved_to]. rewrite sk_c0, sk_ncl0. split; [done|].
    cbn [with_body h_b]. rewrite list_lookup_insert by done. cbn [method]. rewrite run_rint. rewrite (run_sk_BytesRemaining E _ i {| sb_common := Some c; sb_err := None; sb_offset := n; sb_closed := false |} c cm r); [done|].
    constructor; cbn; try done; [by rewrite list_lookup_insert|lia].
  - destruct (ra_open_wf h i b Hwf Hi Hop) as (c & cm & r & Ho). pose proof Ho as [ra_b0 ra_ncl0 ra_c0 ra_cm0 ra_r0 ra_at0 ra_off0 ra_len0].
    exists (rc_length cm), (rb_offset b), (Z.max 0 (rc_length cm - rb_offset b)). split; [done|]. split; [done|].
    unfold exec. cbn [cmd_prog]. rewrite Hi. cbn [method]. rewrite run_rint, (run_ra_BytesRemaining E _ _ _ _ _ _ Ho). split; [done|]. split; [lia|].
    intros off wh Hoff Hwh. rewrite run_rseek, (run_ra_Seek E _ _ _ _ _ _ _ _ Ho Hoff).
    destruct (seek_to (rc_length cm) _ _ _) as [n [e|]] eqn:Hst; eexists _, _; (split; [done|]); [by rewrite (Hneg1 _ _ _ _ _ _ Hst)|].
    apply Hrange in Hst; [|lia]. cbv zeta. split; [done|]. cbn [moved_to]. rewrite ra_c0, ra_ncl0. split; [done|].
    cbn [with_body h_b]. rewrite list_lookup_insert by done. cbn [method]. rewrite run_rint. rewrite (run_ra_BytesRemaining E _ i {| rb_common := Some c; rb_err := None; rb_offset := n; rb_closed := false |} c cm r).
    { cbn. do 3 f_equal. lia. }
    constructor; cbn; try done; [by rewrite list_lookup_insert|lia].
Qed.

(** When it fails. *)
Lemma seek_failure len pos off whence n err :
  0 <= len -> seek_to len pos off whence = (n, err) ->
  (is_Some err <-> seek_fails len pos off whence \/ seek_overflows len pos off whence) /\
  (err = None -> n = Z.min (seek_target len pos off whence) len).
Proof.
  intros Hl. unfold seek_to, seek_fails, seek_overflows, seek_target. repeat gif; intros [= <- <-]; split; try done; try lia; split; intros H; try (by eexists); try lia.
  all: by destruct H.
Qed.
End Seek.

(** ** C09 *)
Theorem seek_arithmetic (W : Type) (E : env W) (fuel : nat) (h : heap W) (i : nat) (b : bobj) :
  go_env E -> reaches E fuel h -> h_b h !! i = Some b -> open_seekable b = true ->
  exists len pos rem,
    0 <= len <= max_i64 /\ 0 <= pos <= max_i64 /\
    exec E fuel h (Call i BytesRemaining) = (h, ORet (RInt rem)) /\ (rem = len - pos \/ len <= pos /\ rem = 0) /\
    forall off whence, in_i64 off -> in_i64 whence ->
    let t := seek_target len pos off whence in
    (seek_fails len pos off whence ->
       exec E fuel h (Call i (Seek off whence)) = (h, ORet (RSeek (-1) (Some (
         if (whence =? 0) && (off <? 0) then NegativeStartOffset off
         else if (whence <? 0) || (2 <? whence) then UnknownWhence whence
         else NegativeComputedOffset t))))) /\
    (0 <= whence <= 2 -> max_i64 < t ->
       exec E fuel h (Call i (Seek off whence)) = (h, ORet (RSeek (-1) (Some (NegativeComputedOffset (t - 2 ^ 64)))))) /\
    (~ seek_fails len pos off whence -> t <= max_i64 ->
       let n := Z.min t len in
       let h' := with_body h i (moved_to b n) in
       exec E fuel h (Call i (Seek off whence)) = (h', ORet (RSeek n None)) /\
       exec E fuel h' (Call i BytesRemaining) = (h', ORet (RInt (len - n)))).
Proof.
  intros Hge Hr Hi Hop. destruct (seek_call E fuel h i b Hge Hr Hi Hop) as (len & pos & rem & Hl & Hp & Hbr & Hrem & Hs).
  exists len, pos, rem. repeat (split; [done|]). intros off whence Ho Hw. cbv zeta.
  destruct (Hs off whence Ho Hw) as (n & err & Hst & Hex).
  unfold seek_fails, seek_target, seek_to, in_i64 in *.
  cbv zeta in Hst. set (base := if whence =? 1 then pos else if whence =? 2 then len else 0) in *.
  assert (Hb : whence = 0 -> base = 0) by (intros ->; done). clearbody base. unfold min_i64, max_i64 in *.
  destruct ((whence =? 0) && (off <? 0)) eqn:H1; [|destruct ((whence <? 0) || (2 <? whence)) eqn:H2; [|
    destruct (_ <? base + off) eqn:H3 in Hst; [|destruct (base + off <? 0) eqn:H4 in Hst]]]; injection Hst as <- <-.
  - split; [done|]. split; intros; lia.
  - split; [done|]. split; intros; lia.
  - split; [intros; lia|]. split; [done|]. intros; lia.
  - split; [done|]. split; intros; lia.
  - cbv zeta in Hex. destruct Hex as (_ & Hx1 & Hx2). split; [intros; lia|]. split; [intros; lia|]. done.
Qed.

Theorem seek_wraps :
  exists (W : Type) (E : env W) (fuel : nat) (w : W) (d : bytes) (off : Z),
  go_env E /\ in_i64 off /\ 0 < off /\
  exists h err, history E fuel (initial w) [NewBytes d; Call 1 (Seek 3 0); Call 1 (Seek off 1); Call 1 BytesRemaining] =
    (h, [ORet (RBody 1 None); ORet (RSeek 3 None); ORet (RSeek (-1) (Some err)); ORet (RInt (zlen d - 3))]).
Proof.
  exists (list nat), (demo []), 0%nat, [], (bs "hello"), max_i64.
  split; [apply demo_go|]. split; [unfold in_i64, min_i64, max_i64; lia|]. split; [unfold max_i64; lia|].
  eexists _, _. vm_compute. reflexivity.
Qed.

(** ** C19 *)
Lemma ideal_none st i f st' x : untelling (Call i f) -> ideal (mem_family []) st f st' x -> ideal none_family st f st' x.
Proof.
  destruct st as [|pos ended]; [destruct f; cbn; done|]. destruct f; cbn; try done.
  intros Hoff [-> H]. split; [done|]. rewrite andb_false_r in H. match goal with |- context [?o <? 0] => assert (o <? 0 = false) as -> by lia end. done.
Qed.

Lemma trace_none cs : forall t os, Forall untelling cs -> fam_trace (mem_family []) t cs os -> fam_trace none_family t cs os.
Proof.
  induction cs as [|c cs IH]; intros t os Hu; [done|]. inversion Hu; subst. destruct os as [|o os]; [by destruct c|].
  destruct c; cbn [fam_trace]; try (by apply IH). destruct (t !! i); [|by apply IH].
  destruct o as [x|e|]; [|by intros [[w ->] _]|done]. intros (t' & (st & st' & H3 & H4 & H5) & H6). exists t'. split; [|by apply IH].
  exists st, st'. split; [done|]. split; [by eapply ideal_none|done].
Qed.

Theorem empty_is_none (W : Type) (E : env W) (fuel : nat) (h : heap W) (c : cmd) :
  c = NewEmpty \/ c = NewBytes [] \/ c = NewString "" ->
  exists h1 i, exec E fuel h c = (h1, ORet (RBody i None)) /\ h_b h !! i = None /\
  forall cs h2 os, Forall go_cmd cs -> Forall untelling cs -> history E fuel h1 cs = (h2, os) ->
  fam_trace none_family {[ i := At 0 false ]} cs os.
Proof.
  intros Hc. destruct (in_memory_cursors W E fuel h c []) as (h1 & i & H1 & H2 & H3).
  { destruct Hc as [->|[->| ->]]; [by right; right|by left|right; left]. by exists ""%string. }
  { destruct Hc as [->|[->| ->]]; cbn; unfold max_slice; try done; cbn; lia. }
  exists h1, i. split; [done|]. split; [done|]. intros cs h2 os Hgo Hu Hh. apply trace_none; [done|]. by eapply H3.
Qed.

Theorem empty_told_apart :
  exists (W : Type) (E : env W) (fuel : nat) (w : W) cs h os,
  Forall go_cmd cs /\ history E fuel (initial w) (NewEmpty :: Call 1 (Seek 0 0) :: cs) = (h, ORet (RBody 1 None) :: ORet (RSeek 0 None) :: os) /\ length os = length cs /\ ~ fam_trace none_family {[ 1%nat := At 0 false ]} cs os.
Proof.
  exists (list nat), (demo []), 0%nat, [], [Call 1 (ReadAt [] (-1))]. eexists _, _. split; [repeat constructor; vm_compute; done|].
  split; [vm_compute; reflexivity|]. split; [done|]. intros (t' & (st & st' & H1 & H2 & H3) & _).
  injection H1 as <-. cbn in H2. destruct H2 as [_ ?]. done.
Qed.
Theorem empty_told_apart_writing :
  exists (W : Type) (E : env W) (fuel : nat) (w : W) cs h os,
  Forall go_cmd cs /\ history E fuel (initial w) (NewEmpty :: Call 1 (Read (buf 1)) :: cs) = (h, ORet (RBody 1 None) :: ORet (RRead 0 (buf 1) (Some EOF)) :: os) /\ length os = length cs /\ ~ fam_trace none_family {[ 1%nat := At 0 true ]} cs os.
Proof.
  exists (list nat), (demo []), 0%nat, [], [Call 1 (WriteTo 0)]. eexists _, _. split; [repeat constructor; vm_compute; done|].
  split; [vm_compute; reflexivity|]. split; [done|]. intros (t' & (st & st' & H1 & H2 & H3) & _).
  injection H1 as <-. cbn in H2. destruct H2 as [_ ?]. done.
Qed.

(** ** C20 *)
Section WriteTo.
Context {W : Type} (E : env W) (fuel : nat).
Implicit Types h : heap W.

Lemma read_unread h i d pos p :
  h_b h !! i = Some (BBytes {| by_data := d; by_offset := Z.of_nat pos; by_eof := false; by_closed := false |}) ->
  (pos <= length d)%nat -> zlen p = zlen d - Z.of_nat pos ->
  exists h', exec E fuel h (Call i (Read p)) = (h', ORet (RRead (zlen p) (drop pos d) None)).
Proof.
  intros Hi Hpos Hp. unfold exec. cbn [cmd_prog]. rewrite Hi. cbn [method]. unfold bytes_Read. rs. cbn [by_closed by_eof by_data by_offset].
  assert (zlen p >? zlen d - Z.of_nat pos = false) as -> by lia.
  pose proof (src_filled d pos (zlen p) p Hpos ltac:(unfold zlen; lia) ltac:(lia)) as [Hs1 Hs2].
  rs. rewrite Hs1. rs. rewrite Hs2. rs. eexists. do 3 f_equal. unfold filled, zlen in *.
  rewrite take_ge by (rewrite drop_length; lia). rewrite (drop_ge p) by lia. by rewrite app_nil_r.
Qed.

Theorem writes_unread h i b :
  go_env E -> reaches E fuel h -> h_b h !! i = Some (BBytes b) -> by_closed b = false -> by_eof b = false ->
  exists u,
    exec E fuel h (Call i BytesRemaining) = (h, ORet (RInt (zlen u))) /\ (forall p, zlen p = zlen u -> exists h', exec E fuel h (Call i (Read p)) = (h', ORet (RRead (zlen u) u None))) /\ forall w w' ans, ev_write E (h_w h) w u = (w', ans) ->
    let hw := emit h w' (EvWrite w u ans) in
    match ans with
    | inr e => exec E fuel h (Call i (WriteTo w)) = (hw, OPanic e)
    | inl (n, err) =>
        (n < 0 \/ zlen u < n -> exec E fuel h (Call i (WriteTo w)) = (hw, OPanic PAssert)) /\ (0 <= n <= zlen u -> exists h' h'' pos,
          exec E fuel h (Call i (WriteTo w)) = (h', ORet (RWriteTo n err)) /\ h_log h' = h_log hw /\ h_w h' = w' /\ (forall j, j <> i -> h_b h' !! j = h_b h !! j) /\ exec E fuel h' (Call i BytesRemaining) = (h', ORet (RInt (zlen u - n))) /\ (forall p, exec E fuel h' (Call i (Read p)) = (h', ORet (RRead 0 p (Some EOF)))) /\ exec E fuel h' (Call i (Seek 0 1)) = (h'', ORet (RSeek pos None)) /\ (forall p, zlen p = zlen u - n -> exists h3, exec E fuel h'' (Call i (Read p)) = (h3, ORet (RRead (zlen u - n) (drop (Z.to_nat n) u) None))))
    end.
Proof.
  intros Hge Hr Hi Hcl Heof. destruct (reaches_wf E fuel h Hge Hr) as [Hwf Hfe].
  pose proof (wf_b _ Hwf _ _ Hi) as [Hb1 Hb2]. destruct b as [d off eof closed]; cbn in Hcl, Heof, Hb1, Hb2. subst eof closed.
  assert (Hlt : (i < length (h_b h))%nat) by (by eapply lookup_lt_Some).
  remember (Z.to_nat off) as pos eqn:Hpos. assert (off = Z.of_nat pos) as -> by lia. clear Hpos.
  assert (Hu : zlen (drop pos d) = zlen d - Z.of_nat pos) by (unfold zlen in *; rewrite drop_length; lia).
  exists (drop pos d). split. { unfold exec. cbn [cmd_prog]. rewrite Hi. cbn [method]. unfold bytes_BytesRemaining. rs. cbn. by rewrite Hu. }
  split. { intros p Hp. rewrite <- Hp. eapply read_unread; [done|unfold zlen in *; lia|lia]. }
  intros w w' ans Hans. cbv zeta.
  assert (Hsl : slice d (Z.of_nat pos) (zlen d) = Some (drop pos d)).
  { rewrite slice_ok by (unfold zlen in *; lia). rewrite Nat2Z.id, take_ge; [done|]. rewrite drop_length. unfold zlen. lia. }
  assert (Hex : exec E fuel h (Call i (WriteTo w)) =
    let hw := emit h w' (EvWrite w (drop pos d) ans) in
    match ans with
    | inr e => (hw, OPanic e)
    | inl (n, err) => if (n >=? 0) && (n <=? zlen (drop pos d)) then
        (set_b hw (<[i := BBytes {| by_data := d; by_offset := Z.of_nat pos + n; by_eof := true; by_closed := false |}]> (h_b h)), ORet (RWriteTo n err))
        else (hw, OPanic PAssert)
    end).
  { unfold exec. cbn [cmd_prog]. rewrite Hi. cbn [method]. unfold bytes_WriteTo. rs. cbn [by_closed by_eof by_data by_offset]. rewrite Hsl. rs.
    unfold call_write. rs. cbn [run act_step perform]. rewrite Hans. destruct ans as [[n err]|e]; rs; [|done].
    rewrite <- Hu. destruct (n >=? 0); rs; [|done]. destruct (n <=? _); rs; done. }
  rewrite Hex. cbv zeta. destruct ans as [[n err]|e]; [|done]. split; [intros Hn; gif; [lia|done]|].
  intros Hn. gif; [|lia]. eexists _, _, _. split; [done|]. split; [done|]. split; [done|].
  split. { intros j Hj. cbn. by rewrite list_lookup_insert_ne. }
  set (h' := set_b _ _). assert (Hi' : h_b h' !! i = Some (BBytes {| by_data := d; by_offset := Z.of_nat (pos + Z.to_nat n); by_eof := true; by_closed := false |})).
  { cbn. rewrite list_lookup_insert by done. do 3 f_equal. lia. }
  split. { unfold exec. cbn [cmd_prog]. rewrite Hi'. cbn [method]. unfold bytes_BytesRemaining. rs. cbn. do 3 f_equal. lia. }
  split. { intros p. unfold exec. cbn [cmd_prog]. rewrite Hi'. cbn [method]. unfold bytes_Read. rs. cbn. done. }
  split. { unfold exec. cbn [cmd_prog]. rewrite Hi'. cbn [method]. unfold bytes_Seek. rs. cbn [by_closed by_eof by_data by_offset]. rs.
    change (0 + Z.of_nat (pos + Z.to_nat n)) with (Z.of_nat (pos + Z.to_nat n)). change (1 =? SeekCurrent) with true. cbn [SeekStart negb andb orb Z.eqb].
    rewrite wrap64_id by (unfold in_i64, min_i64, max_i64 in *; lia). gif; [lia|]. assert ((if Z.of_nat (pos + Z.to_nat n) >? zlen d then zlen d else Z.of_nat (pos + Z.to_nat n)) = Z.of_nat (pos + Z.to_nat n)) as -> by (gif; lia). rs. reflexivity. }
  intros p Hp. rewrite <- Hp, drop_drop. eapply read_unread; [|unfold zlen in *; lia|lia].
  cbn. rewrite list_insert_insert, list_lookup_insert by done. done.
Qed.

Theorem writes_nothing_more h i b w :
  h_b h !! i = Some (BBytes b) -> by_closed b = false -> by_eof b = true -> exec E fuel h (Call i (WriteTo w)) = (h, ORet (RWriteTo 0 None)).
Proof. intros Hi Hc He. unfold exec. cbn [cmd_prog]. rewrite Hi. cbn [method]. unfold bytes_WriteTo. rs. rewrite Hc, He. rs. done. Qed.

(** ** C21 *)
Theorem empty_writes h i b w :
  h_b h !! i = Some (BEmpty b) -> em_closed b = false -> exec E fuel h (Call i (WriteTo w)) = (h, ORet (RWriteTo 0 (Some EOF))).
Proof. intros Hi Hc. unfold exec. cbn [cmd_prog]. rewrite Hi. cbn [method]. unfold empty_WriteTo. rs. rewrite Hc. rs. done. Qed.
End WriteTo.

Theorem short_write_loses :
  exists (W : Type) (E : env W) (fuel : nat) (w : W) (d : bytes) (n rem : Z) (err : error) h,
  go_env E /\ 0 < rem /\
  history E fuel (initial w) [NewBytes d; Call 1 (WriteTo 0); Call 1 BytesRemaining; Call 1 (Read (buf 1))] =
    (h, [ORet (RBody 1 None); ORet (RWriteTo n (Some err)); ORet (RInt rem); ORet (RRead 0 (buf 1) (Some EOF))]).
Proof.
  exists (list nat), (scribe 2), 0%nat, [], (bs "hello"). eexists _, _, _, _. split; [apply scribe_go|]. split; [|vm_compute; reflexivity]. done.
Qed.

Theorem empty_fails :
  exists (W : Type) (E : env W) (fuel : nat) (w : W) h,
  go_env E /\ history E fuel (initial w) [NewEmpty; Call 1 (WriteTo 0)] = (h, [ORet (RBody 1 None); ORet (RWriteTo 0 (Some EOF))]).
Proof. exists (list nat), (demo []), 0%nat, []. eexists. split; [apply demo_go|]. vm_compute; reflexivity. Qed.
