(** * C56 — a Body of a streaming Body *)
From stdpp Require Import gmap.
From Verif Require Import NestSpec NestWitness.
From Verif Require NestStream.

(** FromReaderAndLength applied to a Body.  In the heap [h] the Body [i] is open; it
    was made from a Reader that streams some bytes and then reports an error, in
    chunks of any size ([streaming_below]).  The program may have used it and its
    copies in any way before; [d] is what [i] has still to deliver, and [e] the error
    it will report then.  To the upper layer it is a Reader that streams [d] and
    reports [e], just what C04 asks for. *)
Theorem C56_body_is_stream :
  forall (W : Type) (E : env W) (fuel : nat) (h : heap W) (i : nat) (b : bobj) (g : rid -> rid) (d : bytes) (e : error),
  streaming_below E fuel h i b g d e -> stream_source E fuel h i b g d e.
Proof. exact @NestStream.body_is_stream. Qed.
Print Assumptions C56_body_is_stream.

(** So the Body [j] made of the Body [i], and all copies of [j], are independent
    cursors over [d], cut at the length [D] declared for [j]. *)
Theorem C56_nested_cursors :
  forall (W : Type) (E : env W) (fuel : nat) (h : heap W) (i : nat) (b : bobj) (g : rid -> rid) (d : bytes) (e : error),
  streaming_below E fuel h i b g d e ->
  forall (upfuel : nat) h1 j cs h2 os (D : Z),
  wrapped_once (nest E fuel i b g) upfuel 0 (upper h) h1 j cs h2 os -> streaming (nest E fuel i b g) upfuel 0 h1 j D ->
  (exists e', end_error D d e e' /\ stream_trace False (final_answer D (cut D d) (Some e') 0) {[ j := At 0 false ]} cs os) /\
  n_bad (h_w h2) = false.
Proof. exact @NestStream.nested_stream. Qed.
Print Assumptions C56_nested_cursors.

(** The upper Body can be wrapped again, to any depth. *)
Theorem C56_next_layer :
  forall (W : Type) (E : env W) (fuel : nat) (h : heap W) (i : nat) (b : bobj) (g : rid -> rid) (d : bytes) (e : error),
  streaming_below E fuel h i b g d e ->
  forall (upfuel : nat) h1 j cs h2 os (D : Z) (pos : nat) (ended : bool) (b2 : bobj) (g2 : rid -> rid) (e2 : error),
  wrapped_once (nest E fuel i b g) upfuel 0 (upper h) h1 j cs h2 os -> streaming (nest E fuel i b g) upfuel 0 h1 j D ->
  follows {[ j := At 0 false ]} cs os !! j = Some (At pos ended) -> h_b h2 !! j = Some b2 ->
  (length d < upfuel)%nat -> total_read (h_log h2) + zlen d <= 2 ^ 62 ->
  (forall n, g2 n <> 0%nat) -> (forall x, end_error D d e x -> x = e2) ->
  streaming_below (nest E fuel i b g) upfuel h2 j b2 g2 (drop pos (cut D d)) e2.
Proof. exact @NestStream.next_stream. Qed.
Print Assumptions C56_next_layer.

(** If the lower Body has no open copies, then the Reader [r] at the bottom is closed
    by the Close of the last upper handle, and only once: [low] is the lower heap at
    the end. *)
Theorem C56_nested_close :
  forall (W : Type) (E : env W) (fuel : nat) (h : heap W) (i : nat) (b : bobj) (g : rid -> rid)
    (r : rid) (d0 : bytes) (e0 : error) (D0 : Z) (pos : nat) cs0 os0 (e : error),
  stream_below E fuel h i b r d0 e0 D0 pos cs0 os0 -> (forall n, g n <> r) -> (forall x, end_error D0 d0 e0 x -> x = e) ->
  (forall j, tracks {[ i := true ]} cs0 os0 !! j = Some true -> j = i) ->
  forall (upfuel : nat) h1 j cs h2 os (D : Z),
  wrapped_once (nest E fuel i b g) upfuel 0 (upper h) h1 j cs h2 os -> streaming (nest E fuel i b g) upfuel 0 h1 j D ->
  let low := n_low (h_w h2) in
  (~ all_closed (tracks {[ j := true ]} cs os) -> Forall not_close (calls_on r (h_log low))) /\
  (all_closed (tracks {[ j := true ]} cs os) ->
     if is_closer (ev_caps E r)
     then exists pre err, calls_on r (h_log low) = pre ++ [EvClose r err] /\ Forall not_close pre
     else Forall not_close (calls_on r (h_log low))).
Proof. exact @NestStream.nested_stream_close. Qed.
Print Assumptions C56_nested_close.

(** A stream of eleven bytes in chunks of three that ends with an error of its own.
    The lower Body has no length, and two bytes have been read from it.  The upper
    one declares six; it is read through two copies and closed.  The bytes come from
    the bottom once, and the Reader is closed once. *)
Example C56_example :
  let s := {| so_data := bs "hello world"; so_caps := plain; so_chunk := 3; so_last := External 7; so_close := Some (External 8) |} in
  let E := lone s in
  let h1 := fst (exec E 20 (initial 0%nat) (NewReader 0)) in
  let cs0 := [Call 1 (Read (buf 2))] in
  let y0 := history E 20 h1 cs0 in
  let h := fst y0 in
  let b := BBuffered {| bb_common := Some 0%nat; bb_offset := 2; bb_eof := false; bb_closed := false |} in
  let N := nest E 20 1 b S in
  let k1 := fst (exec N 20 (initial (upper h)) (NewReaderLen 0 6)) in
  let cs := [Call 1 (Read (buf 2)); Call 1 Copy; Call 1 (Read (buf 9)); Call 2 (Read (buf 3)); Call 1 Close; Call 2 Close] in
  let y := history N 20 k1 cs in
  stream_below E 20 h 1 b 0 (bs "hello world") (External 7) (-1) 2 cs0 (snd y0) /\
  streaming_below E 20 h 1 b S (bs "llo world") (External 7) /\
  (forall j, tracks {[ 1%nat := true ]} cs0 (snd y0) !! j = Some true -> j = 1%nat) /\
  wrapped_once N 20 0 (upper h) k1 1 cs (fst y) (snd y) /\ streaming N 20 0 k1 1 6 /\
  snd y = [ORet (RRead 2 (bs "ll") None); ORet (RBody 2 None); ORet (RRead 4 (bs "o wo" ++ buf 5) (Some EOF));
           ORet (RRead 3 (bs "o w") None); ORet (RErr None); ORet (RErr (Some (External 8)))] /\
  all_closed (tracks {[ 1%nat := true ]} cs (snd y)) /\
  calls_on 0 (h_log (n_low (h_w (fst y)))) =
    [EvRead 0 65536 3 (bs "hel") None; EvRead 0 65533 3 (bs "lo ") None; EvRead 0 65530 3 (bs "wor") None;
     EvRead 0 65527 2 (bs "ld") None; EvRead 0 65525 0 [] (Some (External 7)); EvClose 0 (Some (External 8))].
Proof.
  cbv zeta. set (s := {| so_data := bs "hello world"; so_caps := plain; so_chunk := 3; so_last := External 7; so_close := Some (External 8) |}).
  set (E := lone s). set (h1 := fst (exec E 20 (initial 0%nat) (NewReader 0))). set (y0 := history E 20 h1 [Call 1 (Read (buf 2))]).
  set (h := fst y0). set (b := BBuffered {| bb_common := Some 0%nat; bb_offset := 2; bb_eof := false; bb_closed := false |}).
  set (N := nest E 20 1 b S). set (k1 := fst (exec N 20 (initial (upper h)) (NewReaderLen 0 6))).
  assert (H1 : stream_below E 20 h 1 b 0 (bs "hello world") (External 7) (-1) 2 [Call 1 (Read (buf 2))] (snd y0)).
  { exists (fun _ => True), (fun w => Nat.min w 11), 0%nat, h1, false. split; [apply (lone_while s); vm_compute; apply le_S, le_S, le_n|].
    split; [done|]. split; [done|]. split.
    { split; [apply lone_go|]. exists [], [], (initial 0%nat), (NewReader 0).
      split; [repeat constructor; vm_compute; done|]. split; [repeat constructor; intros [|[? ?]]; congruence|]. split; [by left|].
      split; [vm_compute; reflexivity|]. split; [vm_compute; reflexivity|]. split; [apply surjective_pairing|]. split; vm_compute; done. }
    split; [split; vm_compute; reflexivity|]. split; [vm_compute; reflexivity|]. split; [vm_compute; reflexivity|].
    split; [by apply Nat.ltb_lt|]. vm_compute. congruence. }
  assert (H2 : forall x, end_error (-1) (bs "hello world") (External 7) x -> x = External 7) by (intros x [[_ ->]|[[Hx _] _]]; [done|by destruct Hx]).
  split; [exact H1|]. split.
  { exists 0%nat, (bs "hello world"), (External 7), (-1), 2%nat, [Call 1 (Read (buf 2))], (snd y0). split; [exact H1|]. split; [done|]. split; [done|exact H2]. }
  split. { intros j. match goal with |- ?t !! _ = _ -> _ => replace t with ({[ 1%nat := true ]} : handles) by (symmetry; apply (bool_decide_eq_true_1 _); vm_compute; reflexivity) end. intros Hj. by apply lookup_singleton_Some in Hj as [<- _]. }
  split.
  { split; [apply NestProofs.nest_go, lone_go|]. exists [], [], (initial (upper h)), (NewReaderLen 0 6).
    split; [repeat constructor; vm_compute; done|]. split; [repeat constructor; intros [|[? ?]]; congruence|]. split; [right; by exists 6|].
    split; [vm_compute; reflexivity|]. split; [vm_compute; reflexivity|]. split; [apply surjective_pairing|]. split; vm_compute; done. }
  split; [split; vm_compute; reflexivity|]. split; [vm_compute; reflexivity|]. split; [|vm_compute; reflexivity].
  intros j. match goal with |- ?t !! _ <> _ => replace t with ({[ 1%nat := false; 2%nat := false ]} : handles) by (symmetry; apply (bool_decide_eq_true_1 _); vm_compute; reflexivity) end.
  rewrite !lookup_insert_Some. intros [[_ ?]|[_ Hj]]; [done|]. apply lookup_singleton_Some in Hj as [_ ?]. done.
Qed.

(** Three layers.  The Reader's own error comes out at the top, after exactly the
    bytes that the layers below had not been asked for. *)
Example C56_example_layers :
  let s := {| so_data := bs "hello world"; so_caps := plain; so_chunk := 3; so_last := External 7; so_close := None |} in
  let E := lone s in
  let h1 := fst (exec E 20 (initial 0%nat) (NewReader 0)) in
  let y0 := history E 20 h1 [Call 1 (Read (buf 2))] in
  let h := fst y0 in
  let b := BBuffered {| bb_common := Some 0%nat; bb_offset := 2; bb_eof := false; bb_closed := false |} in
  let N := nest E 20 1 b S in
  let k1 := fst (exec N 20 (initial (upper h)) (NewReader 0)) in
  let y := history N 20 k1 [Call 1 (Read (buf 4))] in
  let b2 := BBuffered {| bb_common := Some 0%nat; bb_offset := 4; bb_eof := false; bb_closed := false |} in
  let M := nest N 20 1 b2 S in
  let z := history M 20 (initial (upper (fst y))) [NewReader 0; Call 1 (Read (buf 9)); Call 1 (Read (buf 2)); Call 1 Close] in
  streaming_below E 20 h 1 b S (bs "llo world") (External 7) /\
  wrapped_once N 20 0 (upper h) k1 1 [Call 1 (Read (buf 4))] (fst y) (snd y) /\ streaming N 20 0 k1 1 (-1) /\
  streaming_below N 20 (fst y) 1 b2 S (bs "world") (External 7) /\
  snd z = [ORet (RBody 1 None); ORet (RRead 5 (bs "world" ++ buf 4) (Some (External 7))); ORet (RRead 0 (buf 2) (Some (External 7))); ORet (RErr None)] /\
  n_bad (h_w (fst z)) = false.
Proof.
  cbv zeta. set (s := {| so_data := bs "hello world"; so_caps := plain; so_chunk := 3; so_last := External 7; so_close := None |}).
  set (E := lone s). set (h1 := fst (exec E 20 (initial 0%nat) (NewReader 0))). set (y0 := history E 20 h1 [Call 1 (Read (buf 2))]).
  set (h := fst y0). set (b := BBuffered {| bb_common := Some 0%nat; bb_offset := 2; bb_eof := false; bb_closed := false |}).
  set (N := nest E 20 1 b S). set (k1 := fst (exec N 20 (initial (upper h)) (NewReader 0))). set (y := history N 20 k1 [Call 1 (Read (buf 4))]).
  set (b2 := BBuffered {| bb_common := Some 0%nat; bb_offset := 4; bb_eof := false; bb_closed := false |}).
  assert (H0 : forall d x, end_error (-1) d (External 7) x -> x = External 7) by (intros d x [[_ ->]|[[Hx _] _]]; [done|by destruct Hx]).
  assert (H1 : streaming_below E 20 h 1 b S (bs "llo world") (External 7)).
  { exists 0%nat, (bs "hello world"), (External 7), (-1), 2%nat, [Call 1 (Read (buf 2))], (snd y0). split; [|split; [done|split; [done|apply H0]]].
    exists (fun _ => True), (fun w => Nat.min w 11), 0%nat, h1, false. split; [apply (lone_while s); vm_compute; apply le_S, le_S, le_n|].
    split; [done|]. split; [done|]. split.
    { split; [apply lone_go|]. exists [], [], (initial 0%nat), (NewReader 0).
      split; [repeat constructor; vm_compute; done|]. split; [repeat constructor; intros [|[? ?]]; congruence|]. split; [by left|].
      split; [vm_compute; reflexivity|]. split; [vm_compute; reflexivity|]. split; [apply surjective_pairing|]. split; vm_compute; done. }
    split; [split; vm_compute; reflexivity|]. split; [vm_compute; reflexivity|]. split; [vm_compute; reflexivity|].
    split; [by apply Nat.ltb_lt|]. vm_compute. congruence. }
  assert (Hw : wrapped_once N 20 0 (upper h) k1 1 [Call 1 (Read (buf 4))] (fst y) (snd y)).
  { split; [apply NestProofs.nest_go, lone_go|]. exists [], [], (initial (upper h)), (NewReader 0).
    split; [repeat constructor; vm_compute; done|]. split; [repeat constructor; intros [|[? ?]]; congruence|]. split; [by left|].
    split; [vm_compute; reflexivity|]. split; [vm_compute; reflexivity|]. split; [apply surjective_pairing|]. split; vm_compute; done. }
  assert (Hs : streaming N 20 0 k1 1 (-1)) by (split; vm_compute; reflexivity).
  split; [exact H1|]. split; [exact Hw|]. split; [exact Hs|]. split; [|split; vm_compute; reflexivity].
  apply (C56_next_layer _ E 20 h 1 b S _ _ H1 20 k1 1 _ (fst y) (snd y) (-1) 4 false b2 S _ Hw Hs); [vm_compute; reflexivity|vm_compute; reflexivity|by apply Nat.ltb_lt|vm_compute; congruence|done|apply H0].
Qed.
