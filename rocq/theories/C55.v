(** * C55 — a Body of a Body *)
From stdpp Require Import gmap.
From Verif Require Import NestSpec WitnessSource.
From Verif Require NestMain.

(** FromReaderAndLength applied to a Body.  In the heap [h] the Body [i] is open; it
    was made from the bytes [d], or from a Reader that serves [d] (or more: [d] is the
    part announced) through ReadAt or through Seek and Read ([seekable_below]).  The
    program may have used it and its copies in any way before.  From then on only the
    upper layer uses this Body and, at the bottom, its Reader.  To the upper layer it
    is a Reader whose ReadAt serves [d], just what C02 asks for; and no call on it
    panics or fails to return. *)
Theorem C55_body_is_source :
  forall (W : Type) (E : env W) (fuel : nat) (h : heap W) (i : nat) (b : bobj) (g : rid -> rid) (d : bytes) (early : bool),
  seekable_below E fuel h i b g d early -> source_below E fuel h i b g d early.
Proof. exact @NestMain.body_is_source. Qed.
Print Assumptions C55_body_is_source.

(** So the Body [j] made of the Body [i], and all copies of [j], are independent
    cursors over the first [D] bytes of [d].  They start at the beginning, wherever
    the lower Body stood. *)
Theorem C55_nested_cursors :
  forall (W : Type) (E : env W) (fuel : nat) (h : heap W) (i : nat) (b : bobj) (g : rid -> rid) (d : bytes) (early : bool),
  seekable_below E fuel h i b g d early ->
  forall (upfuel : nat) h1 j cs h2 os (D : Z),
  wrapped_once (nest E fuel i b g) upfuel 0 (upper h) h1 j cs h2 os -> announces (nest E fuel i b g) upfuel h1 j D -> 0 <= D <= zlen d ->
  fam_trace (first_bytes 0 early D d) {[ j := At 0 false ]} cs os /\ n_bad (h_w h2) = false.
Proof. exact @NestMain.nested_cursors. Qed.
Print Assumptions C55_nested_cursors.

(** Without a length the constructor does not fail, and the length it finds is that
    of the lower Body. *)
Theorem C55_nested_length :
  forall (W : Type) (E : env W) (fuel : nat) (h : heap W) (i : nat) (b : bobj) (g : rid -> rid) (d : bytes) (early : bool),
  seekable_below E fuel h i b g d early -> go_env E ->
  forall (upfuel : nat) cs0 h0 os0 (n : Z),
  Forall go_cmd cs0 -> Forall (fun c => ~ wraps 0 c) cs0 ->
  history (nest E fuel i b g) upfuel (initial (upper h)) cs0 = (h0, os0) -> feasible h0 -> n < 0 ->
  exists h1 j, exec (nest E fuel i b g) upfuel h0 (NewReaderLen 0 n) = (h1, ORet (RBody j None)) /\
               announces (nest E fuel i b g) upfuel h1 j (zlen d).
Proof. exact @NestMain.nested_length. Qed.
Print Assumptions C55_nested_length.

(** The upper Body can be wrapped again, to any depth. *)
Theorem C55_next_layer :
  forall (W : Type) (E : env W) (fuel : nat) (h : heap W) (i : nat) (b : bobj) (g : rid -> rid) (d : bytes) (early : bool),
  seekable_below E fuel h i b g d early ->
  forall (upfuel : nat) h1 j cs h2 os (D : Z) (b2 : bobj) (g2 : rid -> rid),
  wrapped_once (nest E fuel i b g) upfuel 0 (upper h) h1 j cs h2 os -> announces (nest E fuel i b g) upfuel h1 j D -> 0 <= D <= zlen d ->
  h_b h2 !! j = Some b2 -> open_seekable b2 = true -> (forall n, g2 n <> 0%nat) ->
  seekable_below (nest E fuel i b g) upfuel h2 j b2 g2 (take (Z.to_nat D) d) early.
Proof. exact @NestMain.next_layer. Qed.
Print Assumptions C55_next_layer.

(** If the lower Body has no open copies, then the Reader [r] at the bottom is closed
    by the Close of the last upper handle, and only once: [low] is the lower heap at
    the end. *)
Theorem C55_nested_close :
  forall (W : Type) (E : env W) (fuel : nat) (h : heap W) (i : nat) (b : bobj) (g : rid -> rid)
    (r : rid) (d : bytes) (early : bool) (D : Z) cs0 os0,
  reader_below E fuel h i b r d early D cs0 os0 -> (forall n, g n <> r) ->
  (forall j, tracks {[ i := true ]} cs0 os0 !! j = Some true -> j = i) ->
  forall (upfuel : nat) h1 j cs h2 os, wrapped_once (nest E fuel i b g) upfuel 0 (upper h) h1 j cs h2 os ->
  let low := n_low (h_w h2) in
  (~ all_closed (tracks {[ j := true ]} cs os) -> Forall not_close (calls_on r (h_log low))) /\
  (all_closed (tracks {[ j := true ]} cs os) ->
     if is_closer (ev_caps E r)
     then exists pre err, calls_on r (h_log low) = pre ++ [EvClose r err] /\ Forall not_close pre
     else Forall not_close (calls_on r (h_log low))).
Proof. exact @NestMain.nested_close. Qed.
Print Assumptions C55_nested_close.

(** A file is wrapped, nine of its eleven bytes; four are read.  The Body is wrapped
    again, seven bytes of it, and the new one is copied, read and closed. *)
Example C55_example :
  let E := archive (bs "hello world") seekable false None in
  let cs0 := [Call 1 (Read (buf 4))] in
  let x0 := exec E 0 (initial (false, 0%nat)) (NewReaderLen 0 9) in
  let y0 := history E 0 (fst x0) cs0 in
  let h := fst y0 in
  let b := BSeeker {| sb_common := Some 0%nat; sb_err := None; sb_offset := 4; sb_closed := false |} in
  let N := nest E 0 1 b S in
  let cs := [Call 1 (Read (buf 4)); Call 1 Copy; NewBytes (bs "other"); Call 3 (Read (buf 2)); Call 2 (Read (buf 9)); Call 1 Close;
             Call 2 (ReadAt (buf 3) 1); Call 2 Close] in
  let x := exec N 0 (initial (upper h)) (NewReaderLen 0 7) in
  let y := history N 0 (fst x) cs in
  reader_below E 0 h 1 b 0 (bs "hello world") false 9 cs0 (snd y0) /\
  (forall j, tracks {[ 1%nat := true ]} cs0 (snd y0) !! j = Some true -> j = 1%nat) /\
  seekable_below E 0 h 1 b S (bs "hello wor") false /\
  wrapped_once N 0 0 (upper h) (fst x) 1 cs (fst y) (snd y) /\ announces N 0 (fst x) 1 7 /\
  snd y = [ORet (RRead 4 (bs "hell") None); ORet (RBody 2 None); ORet (RBody 3 None); ORet (RRead 2 (bs "ot") None);
           ORet (RRead 3 (bs "o w" ++ buf 6) (Some EOF)); ORet (RErr None);
           ORet (RRead 3 (bs "ell") None); ORet (RErr None)] /\
  all_closed (tracks {[ 1%nat := true ]} cs (snd y)) /\
  drop (length (h_log h)) (h_log (n_low (h_w (fst y)))) =
    [EvSeek 0 0 0 0 None; EvRead 0 4 4 (bs "hell") None; EvSeek 0 4 0 4 None; EvRead 0 3 3 (bs "o w") None;
     EvSeek 0 1 0 1 None; EvRead 0 3 3 (bs "ell") None; EvClose 0 None].
Proof.
  cbv zeta.
  assert (Hr : reader_below (archive (bs "hello world") seekable false None) 0
    (fst (history (archive (bs "hello world") seekable false None) 0 (fst (exec (archive (bs "hello world") seekable false None) 0 (initial (false, 0%nat)) (NewReaderLen 0 9))) [Call 1 (Read (buf 4))]))
    1 (BSeeker {| sb_common := Some 0%nat; sb_err := None; sb_offset := 4; sb_closed := false |}) 0 (bs "hello world") false 9 [Call 1 (Read (buf 4))]
    (snd (history (archive (bs "hello world") seekable false None) 0 (fst (exec (archive (bs "hello world") seekable false None) 0 (initial (false, 0%nat)) (NewReaderLen 0 9))) [Call 1 (Read (buf 4))]))).
  { exists alive, (false, 0%nat). eexists. split; [right; split; [by apply archive_serves_seek|done]|]. split; [done|]. split.
    { split; [apply archive_go|]. exists [], []. eexists _, (NewReaderLen 0 9).
      split; [repeat constructor; vm_compute; done|]. split; [repeat constructor; intros [|[? ?]]; congruence|]. split; [right; by eexists|].
      split; [vm_compute; reflexivity|]. split; [vm_compute; reflexivity|]. split; [apply surjective_pairing|]. split; vm_compute; done. }
    split; [vm_compute; reflexivity|]. split; [split; vm_compute; congruence|]. split; vm_compute; reflexivity. }
  split; [exact Hr|]. split.
  { vm_compute snd. cbn [tracks track]. intros j Hj. apply lookup_singleton_Some in Hj as [<- _]. done. }
  split. { right. eexists 0%nat, (bs "hello world"), 9, _, _. split; [exact Hr|]. split; [done|]. vm_compute. reflexivity. }
  split.
  { split; [apply NestProofs.nest_go, archive_go|]. exists [], []. eexists _, (NewReaderLen 0 7).
    split; [repeat constructor; vm_compute; done|]. split; [repeat constructor; intros [|[? ?]]; congruence|]. split; [right; by eexists|].
    split; [vm_compute; reflexivity|]. split; [vm_compute; reflexivity|]. split; [apply surjective_pairing|]. split; vm_compute; done. }
  split; [vm_compute; reflexivity|]. split; [vm_compute; reflexivity|]. split; [|vm_compute; reflexivity].
  intros j. match goal with |- ?t !! _ <> _ => replace t with ({[ 1%nat := false; 2%nat := false ]} : handles) by (symmetry; apply (bool_decide_eq_true_1 _); vm_compute; reflexivity) end.
  rewrite !lookup_insert_Some. intros [[_ ?]|[_ Hj]]; [done|]. apply lookup_singleton_Some in Hj as [_ ?]. done.
Qed.

(** Three layers: a Body over the string, one without a length over that, five bytes
    of it on top.  Reading the top one finds the beginning, although the others have
    been read. *)
Example C55_example_layers :
  let E := demo [] in
  let h := fst (history E 0 (initial []) [NewString "hello world"; Call 1 (Read (buf 4))]) in
  let b := BBytes {| by_data := bs "hello world"; by_offset := 4; by_eof := false; by_closed := false |} in
  let N := nest E 0 1 b id in
  let x := exec N 0 (initial (upper h)) (NewReaderLen 0 (-1)) in
  let y := history N 0 (fst x) [Call 1 (Seek 0 2)] in
  let b2 := BReaderAt {| rb_common := Some 0%nat; rb_err := None; rb_offset := 11; rb_closed := false |} in
  let M := nest N 0 1 b2 S in
  let z := history M 0 (initial (upper (fst y))) [NewReaderLen 0 5; Call 1 (Read (buf 9)); Call 1 Close] in
  seekable_below E 0 h 1 b id (bs "hello world") false /\ go_env E /\ feasible (initial (upper h)) /\
  snd x = ORet (RBody 1 None) /\ announces N 0 (fst x) 1 11 /\
  wrapped_once N 0 0 (upper h) (fst x) 1 [Call 1 (Seek 0 2)] (fst y) (snd y) /\
  seekable_below N 0 (fst y) 1 b2 S (bs "hello world") false /\
  snd z = [ORet (RBody 1 None); ORet (RRead 5 (bs "hello" ++ buf 4) (Some EOF)); ORet (RErr None)] /\
  n_bad (h_w (fst z)) = false.
Proof.
  cbv zeta. set (E := demo []).
  set (h := fst (history E 0 (initial []) [NewString "hello world"; Call 1 (Read (buf 4))])).
  set (b := BBytes {| by_data := bs "hello world"; by_offset := 4; by_eof := false; by_closed := false |}).
  assert (H1 : seekable_below E 0 h 1 b id (bs "hello world") false).
  { left. split; [|done]. exists (initial []), (NewString "hello world"), (fst (exec E 0 (initial []) (NewString "hello world"))), [Call 1 (Read (buf 4))], [ORet (RRead 4 (bs "hell") None)].
    split; [right; left; by exists "hello world"%string|]. split; [vm_compute; congruence|]. split; [vm_compute; reflexivity|].
    split; [repeat constructor; vm_compute; congruence|]. split; [vm_compute; reflexivity|]. split; vm_compute; reflexivity. }
  set (N := nest E 0 1 b id). set (x := exec N 0 (initial (upper h)) (NewReaderLen 0 (-1))).
  set (y := history N 0 (fst x) [Call 1 (Seek 0 2)]).
  assert (Hge : go_env E) by apply demo_go.
  assert (Ha : announces N 0 (fst x) 1 11) by (vm_compute; reflexivity).
  assert (Hw : wrapped_once N 0 0 (upper h) (fst x) 1 [Call 1 (Seek 0 2)] (fst y) (snd y)).
  { split; [by apply NestProofs.nest_go|]. exists [], [], (initial (upper h)), (NewReaderLen 0 (-1)).
    split; [repeat constructor; vm_compute; done|]. split; [repeat constructor; intros [|[? ?]]; congruence|]. split; [right; by exists (-1)|].
    split; [vm_compute; reflexivity|]. split; [vm_compute; reflexivity|]. split; [apply surjective_pairing|]. split; vm_compute; done. }
  split; [exact H1|]. split; [exact Hge|]. split; [split; vm_compute; done|]. split; [vm_compute; reflexivity|]. split; [exact Ha|]. split; [exact Hw|].
  assert (Hb : h_b (fst y) !! 1%nat = Some (BReaderAt {| rb_common := Some 0%nat; rb_err := None; rb_offset := 11; rb_closed := false |})) by (vm_compute; reflexivity).
  split; [|split; [vm_compute; reflexivity|vm_compute; reflexivity]].
  change (bs "hello world") with (take (Z.to_nat 11) (bs "hello world")).
  apply (C55_next_layer _ E 0 h 1 b id _ _ H1 0 (fst x) 1 _ (fst y) (snd y) 11 _ S Hw Ha); [split; vm_compute; congruence|exact Hb|done|done].
Qed.
