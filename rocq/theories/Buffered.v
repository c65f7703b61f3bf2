(** * bufferedBody: what each method does (proofs) *)
From stdpp Require Import gmap.
From Coq Require Import ZifyBool.
From Verif Require Export Seeker.

(** ** Rounding to whole blocks *)
Lemma round_block_spec n :
  0 < n <= 2 ^ 62 -> n <= round_block n < n + blockSize /\ (blockSize | round_block n).
Proof.
  intros Hn. unfold round_block, blockSize.
  rewrite (wrap64_id (n + 65536 - 1)) by (unfold min_i64, max_i64; lia).
  unfold u64. rewrite (Z.mod_small (n + 65536 - 1)) by lia. rewrite (Z.mod_small (65536 - 1)) by lia.
  change (65536 - 1) with (Z.ones 16). rewrite Z.ldiff_ones_r by lia.
  rewrite Z.shiftl_mul_pow2, Z.shiftr_div_pow2 by lia. change (2 ^ 16) with 65536.
  pose proof (Z.div_mod (n + 65536 - 1) 65536 ltac:(lia)) as Hd.
  pose proof (Z.mod_pos_bound (n + 65536 - 1) 65536 ltac:(lia)) as Hm.
  rewrite wrap64_id by (unfold min_i64, max_i64; lia).
  split; [lia|]. apply Z.divide_factor_r.
Qed.

(** ** updateStart as a function of the offsets alone *)
Fixpoint us_pure (os : list Z) (b r : Z) : Z * Z :=
  match os with
  | [] => (b, r)
  | o :: os =>
      let '(b, r) := if (r <=? 0) || (o <? b) then (o, 0) else (b, r) in
      let r := if o =? b then wrap32 (r + 1) else r in
      us_pure os b r
  end.

Definition count_eq (b : Z) (os : list Z) : Z := zlen (filter (λ o, o = b) os).
Lemma count_eq_cons b o os : count_eq b (o :: os) = (if decide (o = b) then 1 else 0) + count_eq b os.
Proof. unfold count_eq. rewrite filter_cons. destruct (decide (o = b)); [rewrite zlen_cons|]; lia. Qed.
Lemma count_eq_nonneg b os : 0 <= count_eq b os.
Proof. apply zlen_nonneg. Qed.

Lemma us_pure_spec os : forall b r,
  1 <= r -> r + zlen os < 2 ^ 31 ->
  let '(b', r') := us_pure os b r in
  b' <= b /\ (forall o, o ∈ os -> b' <= o) /\ (b' = b \/ b' ∈ os) /\
  r' = (if b =? b' then r else 0) + count_eq b' os /\ 1 <= r'.
Proof.
  induction os as [|o os IH]; intros b r Hr Hsz; cbn [us_pure].
  { rewrite Z.eqb_refl. unfold count_eq, zlen; cbn. split_and!; try lia.
    intros o Ho. by apply elem_of_nil in Ho. }
  rewrite zlen_cons in Hsz. pose proof (zlen_nonneg os) as Hos.
  destruct (r <=? 0) eqn:H0; [lia|]. cbn [orb].
  destruct (o <? b) eqn:Hob.
  - rewrite Z.eqb_refl. rewrite wrap32_id by lia.
    specialize (IH o 1 ltac:(lia) ltac:(lia)). rewrite Z.add_0_l. destruct (us_pure os o 1) as [b' r'].
    destruct IH as (H1 & H2 & H3 & H4 & H5). split_and!; try lia.
    + intros o' Ho'. apply elem_of_cons in Ho' as [->|Ho']; [lia|auto].
    + right. destruct H3 as [->|H3]; [left|by right].
    + rewrite count_eq_cons. rewrite H4. destruct (o =? b') eqn:E1; destruct (b =? b') eqn:E2; destruct (decide (o = b')); lia.
  - set (r1 := if o =? b then wrap32 (r + 1) else r).
    assert (Hr1 : r1 = if o =? b then r + 1 else r) by (unfold r1; gif; [apply wrap32_id; lia|done]).
    specialize (IH b r1 ltac:(rewrite Hr1; gif; lia) ltac:(rewrite Hr1; gif; lia)). destruct (us_pure os b r1) as [b' r'].
    destruct IH as (H1 & H2 & H3 & H4 & H5). split_and!; try lia.
    + intros o' Ho'. apply elem_of_cons in Ho' as [->|Ho']; [lia|auto].
    + destruct H3 as [->|H3]; [by left|right; by right].
    + rewrite count_eq_cons. rewrite H4, Hr1. destruct (b =? b') eqn:E1; destruct (o =? b) eqn:E2; destruct (decide (o = b')); lia.
Qed.

Lemma us_pure_start os :
  os <> [] -> zlen os < 2 ^ 31 ->
  let '(b, r) := us_pure os 0 0 in
  b ∈ os /\ (forall o, o ∈ os -> b <= o) /\ r = count_eq b os /\ 1 <= r.
Proof.
  destruct os as [|o os]; [done|]. intros _ Hsz. rewrite zlen_cons in Hsz. pose proof (zlen_nonneg os).
  cbn [us_pure]. change (0 <=? 0) with true. cbn [orb]. rewrite Z.eqb_refl, Z.add_0_l, wrap32_id by lia.
  pose proof (us_pure_spec os o 1 ltac:(lia) ltac:(lia)) as Hs. destruct (us_pure os o 1) as [b r].
  destruct Hs as (H1 & H2 & H3 & H4 & H5). split_and!.
  - destruct H3 as [->|H3]; [left|by right].
  - intros o' Ho'. apply elem_of_cons in Ho' as [->|Ho']; [lia|auto].
  - rewrite count_eq_cons, H4. destruct (o =? b) eqn:?; destruct (decide (o = b)); lia.
  - lia.
Qed.

Lemma count_eq_boff bs b m : count_eq b (map (boff bs) m) = count_at bs b m.
Proof.
  unfold count_eq, count_at. induction m as [|i m IH]; [done|]. cbn [map]. rewrite !filter_cons.
  destruct (decide (boff bs i = b)); [rewrite !zlen_cons; lia|done].
Qed.

(** [cm'] is [cm] with the buffer trimmed to the smallest offset of [m]. *)
Definition restart (bs : list bobj) (m : list nat) (cm cm' : bufferedCommon) : Prop :=
  bc_r cm' = bc_r cm /\ bc_err cm' = bc_err cm /\ bc_bodies cm' = bc_bodies cm /\ bc_length cm' = bc_length cm /\
  bc_start cm <= bc_start cm' <= buf_end cm /\
  bc_bytes cm' = drop (Z.to_nat (bc_start cm' - bc_start cm)) (bc_bytes cm) /\
  (exists i, i ∈ m /\ boff bs i = bc_start cm') /\ (forall i, i ∈ m -> bc_start cm' <= boff bs i) /\
  bc_refcnt cm' = count_at bs (bc_start cm') m.

Lemma restart_end bs m cm cm' : restart bs m cm cm' -> buf_end cm' = buf_end cm.
Proof.
  intros (_ & _ & _ & _ & H1 & H2 & _). unfold buf_end in *. rewrite H2, zlen_drop. lia.
Qed.

(** The bytes a fetch asks for, and the shared object after it. *)
Definition fetch_size (cm : bufferedCommon) (upto : Z) : Z := round_block (upto - buf_end cm).
Definition fetch_want (cm : bufferedCommon) (upto : Z) : Z :=
  if bc_length cm >=? 0 then Z.min (fetch_size cm upto) (bc_length cm - buf_end cm) else fetch_size cm upto.
Definition fetch_eof (cm : bufferedCommon) (upto : Z) : bool :=
  (bc_length cm >=? 0) && (fetch_size cm upto >=? bc_length cm - buf_end cm).

Inductive pull_end := PDone | PErr (e : error) | PBad | PSpin.

Definition grow (cm : bufferedCommon) (d : bytes) (err : option error) : bufferedCommon :=
  {| bc_r := bc_r cm; bc_err := match err with Some e => Some e | None => bc_err cm end;
     bc_bodies := bc_bodies cm; bc_bytes := bc_bytes cm ++ d;
     bc_length := match err with Some _ => buf_end cm + zlen d | None => bc_length cm end;
     bc_start := bc_start cm; bc_refcnt := bc_refcnt cm |}.

Definition pe_err (pe : pull_end) (eof : bool) : option error :=
  match pe with PErr e => Some e | PDone => if eof then Some EOF else None | _ => None end.

Section Buffered.
Context {W : Type} (E : env W).
Implicit Types h : heap W.

(** ** Calls made on the Reader by one fetch *)
Inductive pulls (r : rid) : W -> Z -> W -> list event -> bytes -> pull_end -> Prop :=
| pulls_done w want : want <= 0 -> pulls r w want w [] [] PDone
| pulls_spin w want : 0 < want -> pulls r w want w [] [] PSpin
| pulls_bad w want buf w' n q e :
    0 < want -> zlen buf = want -> ev_read E w r buf = (w', (n, q, e)) -> ~ 0 <= n <= want ->
    pulls r w want w' [EvRead r want n (take (Z.to_nat n) (fit buf q)) e] [] PBad
| pulls_err w want buf w' n q e :
    0 < want -> zlen buf = want -> ev_read E w r buf = (w', (n, q, Some e)) -> 0 <= n <= want ->
    pulls r w want w' [EvRead r want n (take (Z.to_nat n) (fit buf q)) (Some e)] (take (Z.to_nat n) (fit buf q)) (PErr e)
| pulls_more w want buf w1 n q w' evs d pe :
    0 < want -> zlen buf = want -> ev_read E w r buf = (w1, (n, q, None)) -> 0 <= n <= want ->
    pulls r w1 (want - n) w' evs d pe ->
    pulls r w want w' (EvRead r want n (take (Z.to_nat n) (fit buf q)) None :: evs) (take (Z.to_nat n) (fit buf q) ++ d) pe.

Lemma pulls_len r w want w' evs d pe :
  pulls r w want w' evs d pe -> 0 <= want ->
  zlen d <= want /\ (pe = PDone -> zlen d = want) /\ total_read evs = zlen d.
Proof.
  induction 1 as [w want H|w want H|w want buf w' n q e H1 H2 H3 H4|w want buf w' n q e H1 H2 H3 H4|
                  w want buf w1 n q w' evs d pe H1 H2 H3 H4 H5 IH]; intros Hw.
  - rewrite zlen_nil. split_and!; [lia|lia|done].
  - rewrite zlen_nil. split_and!; [lia|done|done].
  - rewrite zlen_nil. split_and!; [lia|done|]. unfold total_read. cbn.
    destruct (0 <=? n) eqn:?; destruct (n <=? want) eqn:?; cbn; lia.
  - assert (Ht : zlen (take (Z.to_nat n) (fit buf q)) = n) by (rewrite zlen_take, zlen_fit; lia).
    rewrite Ht. split_and!; [lia|done|]. unfold total_read. cbn.
    destruct (0 <=? n) eqn:?; destruct (n <=? want) eqn:?; cbn; lia.
  - assert (Ht : zlen (take (Z.to_nat n) (fit buf q)) = n) by (rewrite zlen_take, zlen_fit; lia).
    destruct (IH ltac:(lia)) as (I1 & I2 & I3). rewrite zlen_app, Ht. split_and!; [lia| |].
    + intros Hp. specialize (I2 Hp). lia.
    + change (EvRead r want n (take (Z.to_nat n) (fit buf q)) None :: evs) with ([EvRead r want n (take (Z.to_nat n) (fit buf q)) None] ++ evs). rewrite total_read_app, I3.
      unfold total_read. cbn. destruct (0 <=? n) eqn:?; destruct (n <=? want) eqn:?; cbn; lia.
Qed.

Definition pe_out (pe : pull_end) (z : Z) : out Z :=
  match pe with PDone | PErr _ => ORet z | PBad => OPanic PAssert | PSpin => OSpin end.

Definition heap_cwl h (cs : list cobj) (w : W) (evs : list event) : heap W :=
  {| h_b := h_b h; h_c := cs; h_w := w; h_log := h_log h ++ evs |}.

Lemma run_fill fuel : forall h c cm r bufNew bufLen want,
  h_c h !! c = Some (CBuffered cm) -> bc_r cm = Some r -> 0 <= want ->
  bufLen = zlen (bc_bytes cm) -> zlen bufNew = bufLen + want -> bc_bytes cm = take (Z.to_nat bufLen) bufNew ->
  exists w' evs d pe, pulls r (h_w h) want w' evs d pe /\
    run E h (buffered_fill fuel c bufNew bufLen want (bc_start cm) (buf_end cm)) =
    (heap_cwl h (<[c := CBuffered (grow cm d (pe_err pe false))]> (h_c h)) w' evs,
     pe_out pe (buf_end cm + zlen d)).
Proof.
  induction fuel as [|fuel IH]; intros h c cm r bufNew bufLen want Hc Hr Hw Hlen Hnew Hbytes; cbn [buffered_fill].
  - destruct (want >? 0) eqn:Hw0.
    + exists (h_w h), [], [], PSpin. split; [constructor; lia|]. cbn. unfold grow. cbn. rewrite app_nil_r.
      unfold heap_cwl. rewrite app_nil_r. rewrite list_insert_id; [by destruct h|]. rewrite Hc. by destruct cm.
    + exists (h_w h), [], [], PDone. split; [constructor; lia|]. cbn. unfold grow. cbn. rewrite app_nil_r.
      unfold heap_cwl. rewrite app_nil_r, Z.add_0_r. rewrite list_insert_id; [by destruct h|]. rewrite Hc. by destruct cm.
  - destruct (want >? 0) eqn:Hw0.
    2:{ exists (h_w h), [], [], PDone. split; [constructor; lia|]. cbn. unfold grow. cbn. rewrite app_nil_r.
        unfold heap_cwl. rewrite app_nil_r, Z.add_0_r. rewrite list_insert_id; [by destruct h|]. rewrite Hc. by destruct cm. }
    pose proof (zlen_nonneg (bc_bytes cm)) as Hbl.
    rs. rewrite Hr. rs. rewrite slice_ok by lia. rs.
    replace (bufLen + want - bufLen) with want by lia.
    set (buf := take (Z.to_nat want) (drop (Z.to_nat bufLen) bufNew)).
    assert (Hbuf : zlen buf = want) by (unfold buf; rewrite zlen_take, zlen_drop; lia).
    cbn [perform run act_step bind].
    destruct (ev_read E (h_w h) r buf) as [w1 [[n q] e]] eqn:Hrd. cbn [run]. rs.
    assert (Hlc : (c < length (h_c h))%nat) by (by eapply lookup_lt_Some).
    destruct (n >=? 0) eqn:Hn0; [|
      exists w1, [EvRead r want n (take (Z.to_nat n) (fit buf q)) e], [], PBad; split; [eapply pulls_bad; try done; lia|];
      cbn; unfold heap_cwl, emit, grow; cbn; rewrite app_nil_r, Hbuf, list_insert_id; [done|rewrite Hc; by destruct cm] ].
    rs.
    destruct (n <=? want) eqn:Hn1; [|
      exists w1, [EvRead r want n (take (Z.to_nat n) (fit buf q)) e], [], PBad; split; [eapply pulls_bad; try done; lia|];
      cbn; unfold heap_cwl, emit, grow; cbn; rewrite app_nil_r, Hbuf, list_insert_id; [done|rewrite Hc; by destruct cm] ].
    rs.
    set (bufNew' := take (Z.to_nat bufLen) bufNew ++ fit buf q ++ drop (Z.to_nat (bufLen + want)) bufNew).
    assert (Hl1 : zlen (take (Z.to_nat bufLen) bufNew) = bufLen) by (rewrite zlen_take; lia).
    assert (Hnew' : zlen bufNew' = bufLen + want).
    { unfold bufNew'. rewrite !zlen_app, Hl1, zlen_fit, zlen_drop. lia. }
    set (d := take (Z.to_nat n) (fit buf q)).
    assert (Hd : zlen d = n) by (unfold d; rewrite zlen_take, zlen_fit; lia).
    assert (Htk : take (Z.to_nat (bufLen + n)) bufNew' = bc_bytes cm ++ d).
    { unfold bufNew'. rewrite take_app_ge by (unfold zlen in *; lia).
      rewrite <- Hbytes. f_equal. rewrite take_app_le.
      - unfold d. f_equal. rewrite Hbytes. unfold zlen in *. lia.
      - rewrite fit_length, Hbytes. unfold zlen in *. lia. }
    rewrite slice_0 by lia. rs. rewrite Htk.
    destruct e as [e|].
    + exists w1, [EvRead r want n (take (Z.to_nat n) (fit buf q)) (Some e)], d, (PErr e). split; [eapply pulls_err; try done; lia|].
      cbn [run act_step h_c emit]. rewrite Hc. cbn [run].
      unfold heap_cwl, grow, emit, set_c, buf_end; cbn [h_b h_c h_w h_log pe_err pe_out]. rewrite Hbuf, Hd, Hr.
      rewrite Hlen, Z.add_assoc. done.
    + cbn [run act_step]. change (h_c (emit h w1 (EvRead r (zlen buf) n d None))) with (h_c h). rewrite Hc.
      set (h1 := set_c (emit h w1 (EvRead r (zlen buf) n d None)) _).
      set (cm1 := {| bc_r := Some r; bc_err := bc_err cm; bc_bodies := bc_bodies cm; bc_bytes := bc_bytes cm ++ d;
                     bc_length := bc_length cm; bc_start := bc_start cm; bc_refcnt := bc_refcnt cm |}).
      assert (Hc1 : h_c h1 !! c = Some (CBuffered cm1)).
      { unfold h1. cbn. apply list_lookup_insert. done. }
      destruct (IH h1 c cm1 r bufNew' (bufLen + n) (want - n) Hc1 eq_refl ltac:(lia)) as (w' & evs & d' & pe & Hp & Hrun').
      { cbn. rewrite zlen_app. lia. }
      { lia. }
      { cbn. rewrite Htk. done. }
      exists w', (EvRead r want n (take (Z.to_nat n) (fit buf q)) None :: evs), (d ++ d'), pe.
      split; [eapply pulls_more; try done; lia|].
      replace (bc_start cm + (bufLen + n)) with (buf_end cm1) by (unfold buf_end; cbn; rewrite zlen_app; lia).
      change (bc_start cm) with (bc_start cm1). rewrite Hrun'.
      assert (Hend : buf_end cm1 = buf_end cm + n) by (unfold buf_end; cbn; rewrite zlen_app; lia).
      f_equal.
      * unfold heap_cwl, h1. cbn. rewrite list_insert_insert, <- app_assoc, Hbuf. cbn.
        unfold grow. rewrite Hend, Hr. cbn. rewrite <- app_assoc, zlen_app, Hd.
        destruct (pe_err pe false); rewrite ?Z.add_assoc; done.
      * rewrite Hend, zlen_app, Hd. f_equal. lia.
Qed.

Definition fetch_rel r (w : W) (cm : bufferedCommon) (upto : Z) (w' : W) (evs : list event) (d : bytes) (cm1 : bufferedCommon) (pe : pull_end) : Prop :=
  (bc_err cm <> None \/ upto <= buf_end cm) /\ w' = w /\ evs = [] /\ d = [] /\ cm1 = cm /\ pe = PDone \/
  bc_err cm = None /\ buf_end cm < upto /\ pulls r w (fetch_want cm upto) w' evs d pe /\
  cm1 = grow cm d (pe_err pe (fetch_eof cm upto)).

Lemma fetch_want_nonneg cm upto :
  0 <= bc_start cm -> buf_end cm < upto -> upto - buf_end cm <= 2 ^ 62 ->
  bc_length cm = -1 \/ buf_end cm <= bc_length cm -> 0 <= fetch_want cm upto.
Proof.
  intros Hs H1 H2 H3. pose proof (round_block_spec (upto - buf_end cm) ltac:(lia)) as [Hr _].
  unfold fetch_want, fetch_size. gif; lia.
Qed.

Lemma run_fetch fuel h c cm r upto :
  h_c h !! c = Some (CBuffered cm) -> bc_r cm = Some r -> 0 <= bc_start cm -> upto - buf_end cm <= 2 ^ 62 ->
  bc_length cm = -1 \/ buf_end cm <= bc_length cm ->
  exists w' evs d cm1 pe,
    fetch_rel r (h_w h) cm upto w' evs d cm1 pe /\
    run E h (buffered_fetch fuel c (bc_start cm) (buf_end cm) upto) =
    (heap_cwl h (<[c := CBuffered cm1]> (h_c h)) w' evs, pe_out pe (buf_end cm1)).
Proof.
  intros Hc Hr Hst Hup Hlen. unfold buffered_fetch. rs.
  destruct (match bc_err cm with Some _ => false | None => upto >? buf_end cm end) eqn:Hcond.
  2:{ exists (h_w h), [], [], cm, PDone. split.
      - left. split_and!; try done. destruct (bc_err cm); [left; done|right; lia].
      - unfold heap_cwl. rewrite app_nil_r, list_insert_id by done. by destruct h. }
  assert (Herr : bc_err cm = None) by (destruct (bc_err cm); done).
  rewrite Herr in Hcond. assert (Hgt : buf_end cm < upto) by lia.
  pose proof (fetch_want_nonneg cm upto Hst Hgt Hup Hlen) as Hw.
  assert (Hsel : run E h (if bc_length cm >=? 0 then
         assert (buf_end cm <=? bc_length cm) ;;;
         Ret (if round_block (upto - buf_end cm) >=? bc_length cm - buf_end cm then (bc_length cm - buf_end cm, true) else (round_block (upto - buf_end cm), false))
       else Ret (round_block (upto - buf_end cm), false)) = (h, ORet (fetch_want cm upto, fetch_eof cm upto))).
  { unfold fetch_want, fetch_eof, fetch_size. destruct (bc_length cm >=? 0) eqn:Hl; [|done].
    rs. destruct (buf_end cm <=? bc_length cm) eqn:Hle; [|lia]. rs. cbn [andb].
    do 2 f_equal. gif; f_equal; lia. }
  rewrite run_bind. rewrite Hsel. cbv beta iota zeta.
  set (want := fetch_want cm upto) in *.
  assert (Hbl : buf_end cm - bc_start cm = zlen (bc_bytes cm)) by (unfold buf_end; lia). rewrite Hbl.
  pose proof (zlen_nonneg (bc_bytes cm)) as Hnn.
  destruct (zlen (bc_bytes cm) + want <? 0) eqn:Hneg; [lia|].
  rs. rewrite slice_0 by lia. rs.
  rewrite (take_ge (bc_bytes cm)) by (unfold zlen; lia).
  assert (Hzero : zlen (repeat zero_byte (Z.to_nat (zlen (bc_bytes cm) + want))) = zlen (bc_bytes cm) + want).
  { unfold zlen at 1. rewrite repeat_length. lia. }
  rewrite copy_into_ok by lia.
  set (bufNew := bc_bytes cm ++ _).
  assert (Hnew : zlen bufNew = zlen (bc_bytes cm) + want).
  { unfold bufNew. rewrite zlen_app, zlen_drop, Hzero. lia. }
  rewrite slice_0 by lia.
  assert (Htk : take (Z.to_nat (zlen (bc_bytes cm))) bufNew = bc_bytes cm).
  { unfold bufNew. rewrite take_app_le by (unfold zlen; lia). apply take_ge. unfold zlen; lia. }
  rewrite Htk. rs.
  set (cm0 := {| bc_r := bc_r cm; bc_err := bc_err cm; bc_bodies := bc_bodies cm; bc_bytes := bc_bytes cm;
                 bc_length := bc_length cm; bc_start := bc_start cm; bc_refcnt := bc_refcnt cm |}).
  assert (cm0 = cm) as -> by (unfold cm0; by destruct cm).
  rewrite (set_c_id h c _ Hc). rs.
  destruct (run_fill fuel h c cm r bufNew (zlen (bc_bytes cm)) want Hc Hr Hw eq_refl Hnew (eq_sym Htk))
    as (w' & evs & d & pe & Hp & Hrun). rewrite Hrun.
  assert (Hlc : (c < length (h_c h))%nat) by (by eapply lookup_lt_Some).
  exists w', evs, d, (grow cm d (pe_err pe (fetch_eof cm upto))), pe.
  split; [right; done|].
  assert (Hge : forall e, buf_end (grow cm d e) = buf_end cm + zlen d).
  { intros e. unfold grow, buf_end. cbn. rewrite zlen_app. lia. }
  destruct pe as [|e| |]; cbn [pe_out pe_err]; [| |done|done]; rewrite Hge.
  - rewrite run_bind. erewrite run_ldBufferedC by (cbn; by apply list_lookup_insert). cbv beta iota zeta.
    cbn [bc_err grow]. rewrite Herr. destruct (fetch_eof cm upto); cbn [andb]; rs.
    + cbn. rewrite list_lookup_insert by done. rewrite list_insert_insert.
      unfold set_c, heap_cwl, grow; cbn. done.
    + done.
  - rewrite run_bind. erewrite run_ldBufferedC by (cbn; by apply list_lookup_insert). cbv beta iota zeta.
    cbn [bc_err grow]. rewrite andb_false_r. rs. done.
Qed.

(** ** Trimming *)
Lemma run_us_loop h m : forall b r,
  (forall i, i ∈ m -> exists x, h_b h !! i = Some (BBuffered x)) ->
  run E h (updateStart_loop m b r) = (h, ORet (us_pure (map (boff (h_b h)) m) b r)).
Proof.
  induction m as [|k m IH]; intros b r Hm; [done|]. cbn [updateStart_loop map us_pure].
  destruct (Hm k ltac:(left)) as (x & Hx). rs.
  assert (Hb : boff (h_b h) k = bb_offset x) by (unfold boff; rewrite Hx; done). rewrite Hb.
  destruct ((r <=? 0) || (bb_offset x <? b)); apply IH; intros i Hi; apply Hm; by right.
Qed.

Lemma run_drop h c cm m :
  h_c h !! c = Some (CBuffered cm) -> bc_bodies cm = Some m -> m <> [] -> zlen m < 2 ^ 31 ->
  (forall i, i ∈ m -> exists x, h_b h !! i = Some (BBuffered x)) ->
  (forall i, i ∈ m -> bc_start cm <= boff (h_b h) i <= buf_end cm) ->
  bc_refcnt cm - 1 = count_at (h_b h) (bc_start cm) m ->
  exists cm', restart (h_b h) m cm cm' /\
    run E h (buffered_drop c) = (set_c h (<[c := CBuffered cm']> (h_c h)), ORet tt).
Proof.
  intros Hc Hm Hne Hsz Hbuf Hoff Hcnt. unfold buffered_drop. rs.
  pose proof (count_at_le (h_b h) (bc_start cm) m) as Hle.
  rewrite wrap32_id by lia.
  assert (Hlc : (c < length (h_c h))%nat) by (by eapply lookup_lt_Some).
  destruct (bc_refcnt cm - 1 <=? 0) eqn:Hz.
  - unfold buffered_updateStart. rewrite run_bind.
    erewrite run_ldBufferedC by (cbn; by apply list_lookup_insert). cbv beta iota zeta.
    cbn [bc_bodies bc_start bc_bytes bc_r bc_err bc_length]. rewrite Hm. cbn [default id].
    rewrite run_bind, run_us_loop by done. cbn [h_b set_c].
    pose proof (us_pure_start (map (boff (h_b h)) m)) as Hus.
    destruct (us_pure (map (boff (h_b h)) m) 0 0) as [b r].
    destruct Hus as (H1 & H2 & H3 & H4).
    { destruct m; done. } { unfold zlen in *. rewrite map_length. lia. }
    apply elem_of_list_fmap in H1 as (i0 & Hi0 & Hin0).
    pose proof (Hoff i0 Hin0) as Hoff0. rewrite <- Hi0 in Hoff0.
    rs. destruct (b >=? bc_start cm) eqn:Hb1; [|lia]. rs. destruct (r >=? 1) eqn:Hb2; [|lia]. rs.
    rewrite slice_ok by (unfold buf_end in *; lia). rs.
    rewrite take_ge by (rewrite drop_length; unfold zlen, buf_end in *; lia).
    cbn. rewrite list_lookup_insert by done. cbn. rewrite list_insert_insert.
    eexists. split; [|done]. unfold restart; cbn. split_and!; try done; try lia.
    + exists i0. done.
    + intros i Hi. apply H2. apply elem_of_list_fmap. by exists i.
    + rewrite H3. apply count_eq_boff.
  - rs. eexists. split; [|done]. unfold restart; cbn. split_and!; try done; try lia.
    + unfold buf_end. pose proof (zlen_nonneg (bc_bytes cm)). lia.
    + rewrite Z.sub_diag. done.
    + apply count_at_pos. lia.
    + intros i Hi. apply Hoff. done.
Qed.

(** ** The methods on an open handle *)
Record bf_open h i b c cm r m : Prop := {
  bf_b : h_b h !! i = Some (BBuffered b);
  bf_ncl : bb_closed b = false;
  bf_c : bb_common b = Some c;
  bf_cm : h_c h !! c = Some (CBuffered cm);
  bf_live : live_buf (h_b h) c cm r m;
  bf_eof : bb_eof b = true -> bb_offset b = buf_end cm /\ bc_err cm <> None
}.

Lemma bf_open_wf h i b :
  wf h -> h_b h !! i = Some (BBuffered b) -> bb_closed b = false ->
  exists c cm r m, bf_open h i b c cm r m.
Proof.
  intros Hwf Hi Hcl. pose proof (wf_b _ Hwf _ _ Hi) as Hb. cbn in Hb. rewrite Hcl in Hb.
  destruct Hb as (Hoff & c & cm & Hc & Hcm & Heof). pose proof (wf_c _ Hwf _ _ Hcm) as (_ & Hl).
  assert (Hne : refs (h_b h) c <> []).
  { intros Hr'. pose proof (refs_pos (h_b h) c i _ Hi Hc) as H. rewrite Hr' in H. unfold zlen in H. cbn in H. lia. }
  destruct (Hl Hne) as (r & m & Hlive). exists c, cm, r, m. constructor; done.
Qed.

Lemma bf_members h i b c cm r m :
  wf h -> bf_open h i b c cm r m ->
  forall j, j ∈ m -> exists x, h_b h !! j = Some (BBuffered x) /\ bb_common x = Some c /\ bb_closed x = false.
Proof.
  intros Hwf [] j Hj. destruct bf_live0 as [_ _ Hrefs _ _ _ _ _ _]. rewrite Hrefs in Hj. apply elem_refs in Hj as (x & Hx & Hxc).
  pose proof (wf_b _ Hwf _ _ Hx) as Hw. destruct x as [|x|x|x|x|x]; cbn in Hxc, Hw; try done.
  - destruct (sb_closed x); [congruence|]. destruct Hw as (_ & c' & y & Hc' & Hy). congruence.
  - destruct (rb_closed x); [congruence|]. destruct Hw as (_ & c' & y & Hc' & Hy). congruence.
  - destruct (bb_closed x) eqn:Hcl; [congruence|]. by exists x.
Qed.

Lemma bf_member_self h i b c cm r m : bf_open h i b c cm r m -> i ∈ m /\ boff (h_b h) i = bb_offset b.
Proof.
  intros []. destruct bf_live0 as [_ _ Hrefs _ _ _ _ _ _]. split.
  - rewrite Hrefs. apply elem_refs. by exists (BBuffered b).
  - unfold boff. rewrite bf_b0. done.
Qed.

Lemma bf_count_m h i b c cm r m : bf_open h i b c cm r m -> zlen m = zlen (refs (h_b h) c).
Proof. intros []. destruct bf_live0 as [_ _ Hrefs _ _ _ _ _ _]. unfold zlen. by rewrite Hrefs. Qed.

Lemma run_bf_BytesRemaining h i b c cm r m :
  bf_open h i b c cm r m ->
  run E h (buffered_BytesRemaining i) =
  (h, ORet (if bc_length cm <? 0 then -1 else if bb_eof b then 0 else bc_length cm - bb_offset b)).
Proof.
  intros Ho. pose proof (bf_member_self _ _ _ _ _ _ _ Ho) as [Hin Hself]. destruct Ho.
  destruct bf_live0 as [L1 L2 L3 L4 L5 L6 L7 L8 L9].
  unfold buffered_BytesRemaining. rs. rewrite bf_ncl0. rs.
  destruct (bb_eof b) eqn:Heof.
  { rs. destruct (bf_eof0 eq_refl) as [He1 He2]. rewrite (L9 He2).
    destruct (buf_end cm <? 0) eqn:?; [|done]. unfold buf_end in *. pose proof (zlen_nonneg (bc_bytes cm)). lia. }
  rewrite bf_c0. rs. destruct (bc_length cm <? 0) eqn:Hl; [done|]. rs.
  pose proof (L5 i Hin) as Hb. rewrite Hself in Hb.
  do 2 f_equal. gif; lia.
Qed.

Lemma run_bf_Unwrap h i b c cm r m :
  bf_open h i b c cm r m -> run E h (buffered_Unwrap i) = (h, ORet (Some r)).
Proof.
  intros []. destruct bf_live0 as [L1 _ _ _ _ _ _ _ _].
  unfold buffered_Unwrap. rs. rewrite bf_ncl0. rs. rewrite bf_c0. rs. congruence.
Qed.

(** The shared object after a Copy at [off]. *)
Definition ref_common (cm : bufferedCommon) (m : list nat) (off : Z) : bufferedCommon :=
  {| bc_r := bc_r cm; bc_err := bc_err cm; bc_bodies := Some m; bc_bytes := bc_bytes cm; bc_length := bc_length cm;
     bc_start := bc_start cm; bc_refcnt := if off =? bc_start cm then wrap32 (bc_refcnt cm + 1) else bc_refcnt cm |}.

Lemma run_bf_Copy h i b c cm r m :
  wf h -> bf_open h i b c cm r m ->
  run E h (buffered_Copy i) =
  (set_c (set_b h (h_b h ++ [BBuffered b]))
     (<[c := CBuffered (ref_common cm (m ++ [length (h_b h)]) (bb_offset b))]> (h_c h)),
   ORet (length (h_b h), None)).
Proof.
  intros Hwf Ho. pose proof (bf_members _ _ _ _ _ _ _ Hwf Ho) as Hmem. destruct Ho.
  destruct bf_live0 as [L1 L2 L3 L4 L5 L6 L7 L8 L9].
  unfold buffered_Copy, buffered_ref. rs. rewrite bf_ncl0. rs. rewrite bf_c0. rs. rewrite L2. rs.
  erewrite run_ldBuffered by (cbn; rewrite lookup_app_r, Nat.sub_diag by lia; done). rs. cbn.
  unfold set_add. rewrite decide_False.
  2:{ intros Hin. destruct (Hmem _ Hin) as (x & Hx & _). apply lookup_lt_Some in Hx. lia. }
  unfold ref_common. repeat f_equal. destruct b; cbn in *; congruence.
Qed.

(** A closed handle. *)
Lemma run_bf_closed fuel h i b f :
  h_b h !! i = Some (BBuffered b) -> bb_closed b = true ->
  run E h (method fuel (BBuffered b) i f) =
  (h, ORet match f with
           | BytesRemaining => RInt 0
           | Read p => RRead 0 p (Some ErrClosed)
           | Close => RErr (Some ErrClosed)
           | Seek _ _ => RNoMethod
           | ReadAt p _ => RNoMethod
           | WriteTo _ => RNoMethod
           | Copy => RBody closedSingleton None
           | Unwrap => RReader None
           end).
Proof.
  intros Hi Hcl. destruct f; cbn [method];
    unfold buffered_BytesRemaining, buffered_Read, buffered_Close, buffered_Copy, buffered_Unwrap;
    rs; rewrite ?Hcl; rs; done.
Qed.

(** Close of a handle that is not the last. *)
Definition closed_buffered : bobj :=
  BBuffered {| bb_common := None; bb_offset := 0; bb_eof := false; bb_closed := true |}.

Definition with_bodies (cm : bufferedCommon) (m : option (list nat)) : bufferedCommon :=
  {| bc_r := bc_r cm; bc_err := bc_err cm; bc_bodies := m; bc_bytes := bc_bytes cm; bc_length := bc_length cm;
     bc_start := bc_start cm; bc_refcnt := bc_refcnt cm |}.
Definition dead_buffered (cm : bufferedCommon) : bufferedCommon :=
  {| bc_r := None; bc_err := None; bc_bodies := None; bc_bytes := []; bc_length := 0; bc_start := 0;
     bc_refcnt := bc_refcnt cm |}.

Lemma set_del_nodup k m : NoDup m -> k ∈ m -> zlen (set_del k m) = zlen m - 1.
Proof. intros H1 H2. unfold zlen, set_del. pose proof (filter_ne_length k m H1 H2). lia. Qed.

Lemma count_at_del bs o k m :
  NoDup m -> k ∈ m -> count_at bs o (set_del k m) = count_at bs o m - (if decide (boff bs k = o) then 1 else 0).
Proof.
  intros Hnd Hk. unfold count_at, set_del.
  induction m as [|x m IH]; [by apply elem_of_nil in Hk|].
  apply NoDup_cons in Hnd as [Hx Hnd]. rewrite !filter_cons.
  destruct (decide (x ≠ k)) as [Hne|He].
  - apply elem_of_cons in Hk as [->|Hk]; [done|]. specialize (IH Hnd Hk). rewrite filter_cons.
    destruct (decide (boff bs x = o)); [rewrite !zlen_cons; lia|lia].
  - assert (x = k) as -> by (destruct (decide (x = k)); tauto).
    assert (filter (λ j, j ≠ k) m = m) as ->.
    { clear -Hx. induction m as [|y m IH]; [done|]. rewrite filter_cons.
      apply not_elem_of_cons in Hx as [Hy Hx]. rewrite decide_True by congruence. f_equal. auto. }
    destruct (decide (boff bs k = o)); [rewrite zlen_cons; lia|lia].
Qed.

Lemma run_bf_Close h i b c cm r m :
  wf h -> bf_open h i b c cm r m -> zlen (h_b h) < 2 ^ 31 ->
  let b' := <[i := closed_buffered]> (h_b h) in
  if zlen m >? 1 then
    exists cm', (if bb_offset b =? bc_start cm then restart (h_b h) (set_del i m) (with_bodies cm (Some (set_del i m))) cm'
                 else cm' = with_bodies cm (Some (set_del i m))) /\
    run E h (buffered_Close i) = (set_b (set_c h (<[c := CBuffered cm']> (h_c h))) b', ORet None)
  else
    run E h (buffered_Close i) =
    let h1 := set_b (set_c h (<[c := CBuffered (dead_buffered cm)]> (h_c h))) b' in
    if is_closer (ev_caps E r) then
      let '(w, err) := ev_close E (h_w h) r in (emit h1 w (EvClose r err), ORet err)
    else (h1, ORet None).
Proof.
  intros Hwf Ho Hsz b'. pose proof (bf_members _ _ _ _ _ _ _ Hwf Ho) as Hmem.
  pose proof (bf_member_self _ _ _ _ _ _ _ Ho) as [Hin Hself].
  pose proof (bf_count_m _ _ _ _ _ _ _ Ho) as Hcm. pose proof (zlen_refs_le (h_b h) c) as Hle.
  destruct Ho. destruct bf_live0 as [L1 L2 L3 L4 L5 L6 L7 L8 L9].
  assert (Hnd : NoDup m) by (rewrite L3; apply NoDup_refs).
  pose proof (set_del_nodup i m Hnd Hin) as Hdel.
  assert (Hlc : (c < length (h_c h))%nat) by (by eapply lookup_lt_Some).
  assert (Hli : (i < length (h_b h))%nat) by (by eapply lookup_lt_Some).
  unfold buffered_Close, buffered_unref. rs. rewrite bf_ncl0. rs. rewrite bf_c0. rs.
  rewrite L2. cbn [option_map default id]. rewrite Hdel.
  fold (with_bodies cm (Some (set_del i m))).
  destruct (zlen m >? 1) eqn:Hm1.
  - destruct (zlen m - 1 >? 0) eqn:Hm2; [|lia]. rs.
    destruct (bb_offset b =? bc_start cm) eqn:Hst.
    + edestruct (run_drop (set_c h (<[c:=CBuffered (with_bodies cm (Some (set_del i m)))]> (h_c h))) c
          (with_bodies cm (Some (set_del i m))) (set_del i m)) as (cm' & Hre & Hrun).
      * cbn. by apply list_lookup_insert.
      * done.
      * intros Hnil. rewrite Hnil in Hdel. unfold zlen at 1 in Hdel. cbn in Hdel. lia.
      * lia.
      * cbn. intros j Hj. apply elem_of_list_filter in Hj as [_ Hj]. destruct (Hmem j Hj) as (x & Hx & _). by exists x.
      * cbn. intros j Hj. apply elem_of_list_filter in Hj as [_ Hj]. by apply L5.
      * cbn. rewrite count_at_del by done. rewrite Hself, decide_True by lia. lia.
      * cbn [h_b set_c] in Hre. exists cm'. split; [done|]. rewrite Hrun. rs. cbn. rewrite ?bf_b0.
        cbn. rewrite ?list_insert_insert. done.
    + rs. eexists. split; [done|]. cbn. rewrite ?bf_b0. cbn. done.
  - destruct (zlen m - 1 >? 0) eqn:Hm2; [lia|]. rs.
    cbn. rewrite list_lookup_insert by done. cbn. rewrite L1. cbn.
    rewrite list_insert_insert. destruct (is_closer (ev_caps E r)).
    + cbn. destruct (ev_close E (h_w h) r) as [w err]. cbn. rewrite ?bf_b0. cbn. done.
    + cbn. rewrite ?bf_b0. cbn. done.
Qed.

(** ** Read *)
Definition at_offset (c : nat) (off : Z) (eof : bool) : bobj :=
  BBuffered {| bb_common := Some c; bb_offset := off; bb_eof := eof; bb_closed := false |}.

Lemma fetch_rel_facts r w cm upto w' evs d cm1 pe :
  fetch_rel r w cm upto w' evs d cm1 pe ->
  0 <= bc_start cm -> upto - buf_end cm <= 2 ^ 62 ->
  bc_length cm = -1 \/ buf_end cm <= bc_length cm <= max_i64 ->
  (bc_err cm <> None -> bc_length cm = buf_end cm) ->
  bc_r cm1 = bc_r cm /\ bc_bodies cm1 = bc_bodies cm /\ bc_start cm1 = bc_start cm /\ bc_refcnt cm1 = bc_refcnt cm /\
  bc_bytes cm1 = bc_bytes cm ++ d /\ total_read evs = zlen d /\
  (bc_length cm1 = -1 \/ buf_end cm1 <= bc_length cm1) /\
  (bc_length cm1 = -1 \/ bc_length cm1 <= bc_length cm \/ bc_length cm = -1 /\ bc_length cm1 = buf_end cm1) /\
  (bc_err cm1 <> None -> bc_length cm1 = buf_end cm1) /\
  (bc_err cm <> None -> cm1 = cm) /\
  ((pe = PDone \/ exists e, pe = PErr e) -> buf_end cm1 < upto -> bc_err cm1 <> None).
Proof.
  intros [(H1 & -> & -> & -> & -> & ->)|(H1 & H2 & H3 & ->)] Hst Hup Hlen Herr.
  { rewrite app_nil_r. change (total_read []) with 0. change (zlen (@nil byte)) with 0. split_and!; try done; try tauto; try lia.
    intros _ H. destruct H1; [done|lia]. }
  pose proof (round_block_spec (upto - buf_end cm) ltac:(lia)) as [Hrb _].
  assert (Hw : 0 <= fetch_want cm upto) by (apply fetch_want_nonneg; try lia).
  pose proof (pulls_len _ _ _ _ _ _ _ H3 Hw) as (P1 & P2 & P3).
  assert (Hge : forall e, buf_end (grow cm d e) = buf_end cm + zlen d).
  { intros e. unfold grow, buf_end. cbn. rewrite zlen_app. lia. }
  rewrite Hge. pose proof (zlen_nonneg d) as Hd.
  unfold fetch_want, fetch_eof, fetch_size in *. cbn [grow bc_r bc_bodies bc_start bc_refcnt bc_bytes bc_length bc_err].
  rewrite H1. split_and!; try done.
  - destruct (pe_err pe _) eqn:Hpe; [right; lia|]. destruct Hlen as [Hlen|Hlen]; [by left|right].
    destruct (bc_length cm >=? 0) eqn:Hl; [lia|]. unfold buf_end in *. pose proof (zlen_nonneg (bc_bytes cm)). lia.
  - destruct (pe_err pe _) eqn:Hpe; [|right; left; lia].
    destruct Hlen as [Hlen|Hlen]; [right; right; lia|right; left].
    destruct (bc_length cm >=? 0) eqn:Hl; [lia|]. unfold buf_end in *. pose proof (zlen_nonneg (bc_bytes cm)). lia.
  - destruct (pe_err pe _); [done|]. intros H; done.
  - intros Hpe Hlt. destruct Hpe as [->|[e ->]]; cbn [pe_err]; [|done].
    specialize (P2 eq_refl). destruct (bc_length cm >=? 0) eqn:Hl; cbn [andb]; [|lia].
    destruct (round_block (upto - buf_end cm) >=? bc_length cm - buf_end cm) eqn:Hr; [done|lia].
Qed.

Lemma run_bf_Read fuel h i b c cm r m p :
  wf h -> bf_open h i b c cm r m -> zlen (h_b h) < 2 ^ 31 -> zlen p <= 2 ^ 61 -> buf_end cm <= 2 ^ 62 ->
  if bb_eof b then run E h (buffered_Read fuel i p) = (h, ORet (0, p, bc_err cm))
  else exists w' evs d cm1 pe,
    fetch_rel r (h_w h) cm (bb_offset b + zlen p) w' evs d cm1 pe /\
    match pe with
    | PBad => run E h (buffered_Read fuel i p) = (heap_cwl h (<[c := CBuffered cm1]> (h_c h)) w' evs, OPanic PAssert)
    | PSpin => run E h (buffered_Read fuel i p) = (heap_cwl h (<[c := CBuffered cm1]> (h_c h)) w' evs, OSpin)
    | _ =>
      let fin := Z.min (bb_offset b + zlen p) (buf_end cm1) in
      let n := fin - bb_offset b in
      let eof := bb_offset b + zlen p >? buf_end cm1 in
      let bs' := <[i := at_offset c fin eof]> (h_b h) in
      exists cm2,
        (if (bb_offset b =? bc_start cm) && (0 <? n) then restart bs' m cm1 cm2 else cm2 = cm1) /\
        0 <= n <= zlen p /\
        run E h (buffered_Read fuel i p) =
        (set_b (heap_cwl h (<[c := CBuffered cm2]> (h_c h)) w' evs) bs',
         ORet (n, take (Z.to_nat n) (drop (Z.to_nat (bb_offset b - bc_start cm)) (bc_bytes cm1)) ++ drop (Z.to_nat n) p,
               if eof then bc_err cm1 else None))
    end.
Proof.
  intros Hwf Ho Hsz Hp Hbe. pose proof (bf_members _ _ _ _ _ _ _ Hwf Ho) as Hmem.
  pose proof (bf_member_self _ _ _ _ _ _ _ Ho) as [Hin Hself].
  pose proof (bf_count_m _ _ _ _ _ _ _ Ho) as Hcm. pose proof (zlen_refs_le (h_b h) c) as Hle.
  destruct Ho. pose proof bf_live0 as [L1 L2 L3 L4 L5 L6 L7 L8 L9].
  assert (Hnd : NoDup m) by (rewrite L3; apply NoDup_refs).
  assert (Hlc : (c < length (h_c h))%nat) by (by eapply lookup_lt_Some).
  assert (Hli : (i < length (h_b h))%nat) by (by eapply lookup_lt_Some).
  unfold buffered_Read. rs. rewrite bf_ncl0. rs. rewrite bf_c0. rs.
  destruct (bb_eof b) eqn:Heof; [rs; done|].
  pose proof (L5 i Hin) as Hoff. rewrite Hself in Hoff. pose proof (zlen_nonneg p) as Hp0.
  pose proof (zlen_nonneg (bc_bytes cm)) as Hb0.
  assert (Hwr : wrap64 (bb_offset b + zlen p) = bb_offset b + zlen p).
  { apply wrap64_id. unfold min_i64, max_i64. lia. }
  rewrite Hwr. fold (buf_end cm).
  rs. destruct (bb_offset b >=? bc_start cm) eqn:Hge; [|lia]. rs.
  assert (L8' : bc_length cm = -1 \/ buf_end cm <= bc_length cm) by lia.
  destruct (run_fetch fuel h c cm r (bb_offset b + zlen p) bf_cm0 L1 L4 ltac:(unfold buf_end in *; lia) L8')
    as (w' & evs & d & cm1 & pe & Hf & Hrun).
  exists w', evs, d, cm1, pe. split; [done|]. rewrite Hrun.
  pose proof (fetch_rel_facts _ _ _ _ _ _ _ _ _ Hf L4 ltac:(unfold buf_end in *; lia) L8 L9) as
    (F1 & F2 & F3 & F4 & F5 & F6 & F7 & F7b & F8 & F9 & F10).
  assert (Hend1 : buf_end cm1 = buf_end cm + zlen d) by (unfold buf_end; rewrite F3, F5, zlen_app; lia).
  pose proof (zlen_nonneg d) as Hd0.
  cbv zeta.
  set (fin := Z.min (bb_offset b + zlen p) (buf_end cm1)).
  set (eof := bb_offset b + zlen p >? buf_end cm1).
  assert (Hfin : bb_offset b <= fin <= buf_end cm1) by (unfold fin; lia).
  assert (Hmain : pe_out pe (buf_end cm1) = ORet (buf_end cm1) ->
    exists cm2,
        (if (bb_offset b =? bc_start cm) && (0 <? fin - bb_offset b) then restart (<[i := at_offset c fin eof]> (h_b h)) m cm1 cm2 else cm2 = cm1) /\
        0 <= fin - bb_offset b <= zlen p /\
        match (heap_cwl h (<[c:=CBuffered cm1]> (h_c h)) w' evs, pe_out pe (buf_end cm1)) with
        | (h', ORet a) =>
            run E h'
              (cm0 <- ldBufferedC c;;
               let err := if bb_offset b + zlen p >? a then bc_err cm0 else None in
               let eof := if bb_offset b + zlen p >? a then true else false in
               let endOffset := if bb_offset b + zlen p >? a then a else bb_offset b + zlen p in
               let i' := bb_offset b - bc_start cm in
               let j := endOffset - bc_start cm in
               let n := j - i' in
               src <- of_option PRange (slice (bc_bytes cm0) i' j);;
               p' <- of_option PRange (copy_into p 0 n src);;
               perform (StoreB i (BBuffered {| bb_common := Some c; bb_offset := endOffset; bb_eof := eof; bb_closed := false |}));;;
               buffered_advance c (bb_offset b) endOffset;;;
               Ret (n, p', err))
        | (h', OPanic e) => (h', OPanic e)
        | (h', OSpin) => (h', OSpin)
        end =
        (set_b (heap_cwl h (<[c := CBuffered cm2]> (h_c h)) w' evs) (<[i := at_offset c fin eof]> (h_b h)),
         ORet (fin - bb_offset b, take (Z.to_nat (fin - bb_offset b)) (drop (Z.to_nat (bb_offset b - bc_start cm)) (bc_bytes cm1)) ++ drop (Z.to_nat (fin - bb_offset b)) p,
               if eof then bc_err cm1 else None))).
  { intros Hpo. rewrite Hpo.
    assert (Hn : 0 <= fin - bb_offset b <= zlen p) by (unfold fin in *; lia).
    erewrite run_bind, run_ldBufferedC by (cbn; by apply list_lookup_insert). cbv beta iota zeta.
    fold eof. replace (if eof then true else false) with eof by (destruct eof; done).
    replace (if eof then buf_end cm1 else bb_offset b + zlen p) with fin by (unfold fin, eof; gif; lia).
    replace (fin - bc_start cm - (bb_offset b - bc_start cm)) with (fin - bb_offset b) by lia.
    assert (Hsl : slice (bc_bytes cm1) (bb_offset b - bc_start cm) (fin - bc_start cm) =
       Some (take (Z.to_nat (fin - bb_offset b)) (drop (Z.to_nat (bb_offset b - bc_start cm)) (bc_bytes cm1)))).
    { rewrite slice_ok; [|lia|].
      - do 3 f_equal. lia.
      - unfold buf_end in Hfin. rewrite F3 in Hfin. lia. }
    rewrite run_bind, run_of_option, Hsl.
    rewrite run_bind, run_of_option.
    rewrite copy_into_ok.
    2:{ lia. }
    2:{ apply slice_len in Hsl. rewrite Hsl. lia. }
    rewrite run_bind. erewrite run_StoreB by (cbn; eassumption). cbv beta iota.
    fold (at_offset c fin eof).
    set (h2 := set_b (heap_cwl h (<[c:=CBuffered cm1]> (h_c h)) w' evs) _).
    assert (Hcm1 : h_c h2 !! c = Some (CBuffered cm1)) by (cbn; by apply list_lookup_insert).
    set (bs' := <[i := at_offset c fin eof]> (h_b h)) in *.
    assert (Hselff : boff bs' i = fin) by (unfold bs', boff; rewrite list_lookup_insert by done; done).
    unfold buffered_advance. rewrite run_bind, run_bind, (run_ldBufferedC _ _ _ _ Hcm1). cbv beta iota zeta.
    rewrite F3. rs. destruct (bb_offset b >=? bc_start cm) eqn:?; [|lia]. rs.
    destruct (fin >=? bb_offset b) eqn:?; [|lia]. rs.
    replace (bc_start cm + zlen (bc_bytes cm1)) with (buf_end cm1) by (unfold buf_end; lia).
    destruct (buf_end cm1 >=? fin) eqn:?; [|lia]. rs.
    destruct (bb_offset b =? bc_start cm) eqn:Hst; cbn [andb].
    - replace (0 <? fin - bb_offset b) with (negb (fin =? bc_start cm)) by lia.
      destruct (fin =? bc_start cm) eqn:Hfs; cbn [negb].
      + rs. eexists. split; [done|]. split; [lia|]. unfold h2. done.
      + destruct (run_drop h2 c cm1 m Hcm1) as (cm2 & Hre & Hrun2).
        * congruence.
        * intros ->. by apply elem_of_nil in Hin.
        * lia.
        * cbn. intros j Hj. destruct (decide (i = j)) as [<-|Hne].
          { unfold bs'. rewrite list_lookup_insert by done. by eexists. }
          unfold bs'. rewrite list_lookup_insert_ne by done. destruct (Hmem j Hj) as (x & Hx & _). by exists x.
        * change (h_b h2) with bs'. intros j Hj. rewrite F3. destruct (decide (i = j)) as [<-|Hne]; [rewrite Hselff; lia|].
          unfold bs'. rewrite boff_insert_ne by done. specialize (L5 j Hj). lia.
        * change (h_b h2) with bs'. rewrite F4, F3, L6.
          assert (Hcd : forall bs, count_at bs (bc_start cm) m =
             count_at bs (bc_start cm) (set_del i m) + (if decide (boff bs i = bc_start cm) then 1 else 0)).
          { intros bs. rewrite count_at_del by done. lia. }
          rewrite (Hcd (h_b h)), (Hcd bs'). rewrite Hself, Hselff.
          rewrite (count_at_ext (h_b h) bs').
          { rewrite decide_True by lia. rewrite decide_False by lia. lia. }
          intros j Hj. apply elem_of_list_filter in Hj as [Hj _]. unfold bs'. apply boff_insert_ne. done.
        * change (h_b h2) with bs' in Hre. exists cm2. split; [done|]. split; [lia|].
          rewrite Hrun2. rs. unfold h2, set_b, set_c, heap_cwl; cbn. rewrite list_insert_insert. done.
    - rs. eexists. split; [done|]. split; [lia|]. unfold h2. done. }
  destruct pe as [|e| |]; cbn [pe_out] in *.
  - apply Hmain. done.
  - apply Hmain. done.
  - done.
  - done.
Qed.

End Buffered.
