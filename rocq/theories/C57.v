(** * C57 — Readers that fail, and Readers with fewer bytes than announced *)
From stdpp Require Import gmap.
From Verif Require Import ShortSpec StreamSpec NestSpec ShortWitness.
From Verif Require Short ShortNest.

(** [r] is a Reader whose ReadAt never gives a byte that is not in [d] at that place,
    but may give fewer than asked for, and may fail at any time and later not fail.
    The program wraps it, after doing anything else, into the Body [i]; [D] is the
    length announced, whether [r] has so many bytes or not.  Then every call on [i]
    and its copies is answered; no byte read is wrong; and all handles share one
    length, which a Read that ends with an error lowers to where it ended. *)
Theorem C57_readerat_faults :
  forall (W : Type) (E : env W) (fuel : nat) (r : rid) (live : W -> Prop) (d : bytes),
  truthful_at E r live d -> cp_readerat (ev_caps E r) = true ->
  forall (w : W) h1 i cs h2 os (D : nat),
  live w -> wrapped_once E fuel r w h1 i cs h2 os -> announces E fuel h1 i (Z.of_nat D) ->
  shrink_trace (served d) r D {[ i := Pos 0 None ]} cs os.
Proof. exact @Short.faults_at. Qed.
Print Assumptions C57_readerat_faults.

(** The same through Seek and Read; Seek, too, may fail. *)
Theorem C57_seeker_faults :
  forall (W : Type) (E : env W) (fuel : nat) (r : rid) (live : W -> Prop) (d : bytes),
  truthful_seek E r live d -> cp_readerat (ev_caps E r) = false -> cp_seeker (ev_caps E r) = true ->
  forall (w : W) h1 i cs h2 os (D : nat),
  live w -> wrapped_once E fuel r w h1 i cs h2 os -> announces E fuel h1 i (Z.of_nat D) ->
  shrink_trace (served d) r D {[ i := Pos 0 None ]} cs os.
Proof. exact @Short.faults_seek. Qed.
Print Assumptions C57_seeker_faults.

(** [r] does not fail, but ends after [d], and [D] is more than that (or not less).
    Then the bytes are those of [d], all of them, and EOF is reported at the end of
    [d] and nowhere else. *)
Theorem C57_readerat_short :
  forall (W : Type) (E : env W) (fuel : nat) (r : rid) (live : W -> Prop) (d : bytes) (early : bool),
  ends_at E r live d early -> cp_readerat (ev_caps E r) = true ->
  forall (w : W) h1 i cs h2 os (D : nat),
  live w -> wrapped_once E fuel r w h1 i cs h2 os -> announces E fuel h1 i (Z.of_nat D) -> (length d <= D)%nat ->
  shrink_trace (served_all d early) r D {[ i := Pos 0 None ]} cs os.
Proof. exact @Short.short_at. Qed.
Print Assumptions C57_readerat_short.

Theorem C57_seeker_short :
  forall (W : Type) (E : env W) (fuel : nat) (r : rid) (live : W -> Prop) (d : bytes) (early : bool),
  ends_seek E r live d early -> cp_readerat (ev_caps E r) = false -> cp_seeker (ev_caps E r) = true ->
  forall (w : W) h1 i cs h2 os (D : nat),
  live w -> wrapped_once E fuel r w h1 i cs h2 os -> announces E fuel h1 i (Z.of_nat D) -> (length d <= D)%nat ->
  shrink_trace (served_all d early) r D {[ i := Pos 0 None ]} cs os.
Proof. exact @Short.short_seek. Qed.
Print Assumptions C57_seeker_short.

(** The same if [r] is itself a Body, of which the upper Body [j] announces more
    than it has. *)
Theorem C57_nested_short :
  forall (W : Type) (E : env W) (fuel : nat) (h : heap W) (i : nat) (b : bobj) (g : rid -> rid) (d : bytes) (early : bool),
  seekable_below E fuel h i b g d early ->
  forall (upfuel : nat) h1 j cs h2 os (D : nat),
  wrapped_once (nest E fuel i b g) upfuel 0 (upper h) h1 j cs h2 os -> announces (nest E fuel i b g) upfuel h1 j (Z.of_nat D) -> (length d <= D)%nat ->
  shrink_trace (served_all d early) 0 D {[ j := Pos 0 None ]} cs os /\ n_bad (h_w h2) = false.
Proof. exact @ShortNest.nested_short. Qed.
Print Assumptions C57_nested_short.

(** What follows once any handle has read to the end ([j], in [cs1], during which
    Seek is not used): the wrong length is forgotten.  From then on the handles are
    independent cursors over [d], as if [zlen d] had been announced (C02). *)
Theorem C57_then_exact :
  forall (d : bytes) (early : bool) (r : rid) (D i : nat) cs1 cs2 os1 os2 (j pos : nat),
  (length d <= D)%nat -> shrink_trace (served_all d early) r D {[ i := Pos 0 None ]} (cs1 ++ cs2) (os1 ++ os2) ->
  length os1 = length cs1 -> Forall (fun c => match c with Call _ (Seek _ _) => False | _ => True end) cs1 ->
  follows {[ i := At 0 false ]} cs1 os1 !! j = Some (At pos true) ->
  fam_trace (first_bytes r early (zlen d) d) (follows {[ i := At 0 false ]} cs1 os1) cs2 os2.
Proof. exact @Short.then_exact. Qed.
Print Assumptions C57_then_exact.

(** Every third ReadAt of the Reader fails after two bytes.  One of the two handles
    is at 7 when the other one's Read fails at 5.  The length is 5 for both from then
    on: six bytes of the source can no longer be read. *)
Example C57_example_faults :
  let E := faulty (bs "hello world") in
  let cs := [Call 1 (Read (buf 2)); Call 1 Copy; Call 2 (ReadAt (buf 4) 6); Call 1 (Read (buf 5)); NewBytes (bs "other"); Call 2 (Read (buf 1));
             Call 2 (Read (buf 5)); Call 2 BytesRemaining; Call 1 BytesRemaining; Call 1 (Read (buf 4)); Call 2 Close; Call 1 (Seek 0 0); Call 1 (Read (buf 6))] in
  let x := exec E 0 (initial 0%nat) (NewReaderLen 0 20) in
  let y := history E 0 (fst x) cs in
  truthful_at E 0 (fun _ => True) (bs "hello world") /\ cp_readerat (ev_caps E 0) = true /\
  wrapped_once E 0 0 0%nat (fst x) 1 cs (fst y) (snd y) /\ announces E 0 (fst x) 1 (Z.of_nat 20) /\
  snd y = [ORet (RRead 2 (bs "he") None); ORet (RBody 2 None); ORet (RRead 2 (bs "wo" ++ buf 2) (Some (External 9)));
           ORet (RRead 5 (bs "llo w") None); ORet (RBody 3 None); ORet (RRead 1 (bs "l") None);
           ORet (RRead 2 (bs "lo" ++ buf 3) (Some (External 9))); ORet (RInt 0); ORet (RInt 0); ORet (RRead 0 (buf 4) (Some EOF)); ORet (RErr None);
           ORet (RSeek 0 None); ORet (RRead 5 (bs "hello" ++ buf 1) (Some EOF))].
Proof.
  cbv zeta. split; [apply faulty_truthful|]. split; [done|]. split; [split; [apply faulty_go|]; wrap_with 20|].
  split; [vm_compute; reflexivity|]. vm_compute. reflexivity.
Qed.

(** Seek and Read, and a Read that fails once. *)
Example C57_example_seeker :
  let E := hiccup (bs "hello world") in
  let cs := [Call 1 Copy; Call 2 (Seek 6 0); Call 1 (Read (buf 4)); Call 1 BytesRemaining; Call 2 BytesRemaining; Call 2 (Read (buf 4)); Call 2 (ReadAt (buf 2) 0)] in
  let x := exec E 0 (initial (0, 0)%nat) (NewReaderLen 0 8) in
  let y := history E 0 (fst x) cs in
  truthful_seek E 0 (fun _ => True) (bs "hello world") /\ cp_readerat (ev_caps E 0) = false /\ cp_seeker (ev_caps E 0) = true /\
  wrapped_once E 0 0 (0, 0)%nat (fst x) 1 cs (fst y) (snd y) /\ announces E 0 (fst x) 1 (Z.of_nat 8) /\
  snd y = [ORet (RBody 2 None); ORet (RSeek 6 None); ORet (RRead 0 (buf 4) (Some (External 9))); ORet (RInt 0); ORet (RInt (-6));
           ORet (RRead 0 (buf 4) (Some EOF)); ORet (RRead 0 (buf 2) (Some EOF))].
Proof.
  cbv zeta. split; [apply hiccup_truthful|]. split; [done|]. split; [done|]. split; [split; [apply hiccup_rules|]; wrap_with 8|].
  split; [vm_compute; reflexivity|]. vm_compute. reflexivity.
Qed.

(** Twenty bytes announced of eleven.  The handle 2 can be beyond the end; once the
    other has seen the end, Seek knows it. *)
Example C57_example_short :
  let E := archive (bs "hello world") random_access false None in
  let cs1 := [Call 1 (Read (buf 4)); Call 1 Copy; Call 2 BytesRemaining; Call 2 (ReadAt (buf 3) 15); Call 1 (Read (buf 9))] in
  let cs2 := [Call 2 BytesRemaining; Call 2 (Seek 15 0); Call 2 (Seek (-3) 2); Call 2 (Read (buf 3)); Call 2 (Read (buf 1)); Call 1 (Read (buf 1))] in
  let x := exec E 0 (initial (false, 0%nat)) (NewReaderLen 0 20) in
  let y := history E 0 (fst x) (cs1 ++ cs2) in
  let os1 := [ORet (RRead 4 (bs "hell") None); ORet (RBody 2 None); ORet (RInt 16); ORet (RRead 0 (buf 3) (Some EOF)); ORet (RRead 7 (bs "o world" ++ buf 2) (Some EOF))] in
  let os2 := [ORet (RInt 7); ORet (RSeek 11 None); ORet (RSeek 8 None); ORet (RRead 3 (bs "rld") None); ORet (RRead 0 (buf 1) (Some EOF)); ORet (RRead 0 (buf 1) (Some EOF))] in
  ends_at E 0 alive (bs "hello world") false /\ cp_readerat (ev_caps E 0) = true /\ alive (false, 0%nat) /\
  wrapped_once E 0 0 (false, 0%nat) (fst x) 1 (cs1 ++ cs2) (fst y) (snd y) /\ announces E 0 (fst x) 1 (Z.of_nat 20) /\
  snd y = os1 ++ os2 /\
  follows {[ 1%nat := At 0 false ]} cs1 os1 !! 1%nat = Some (At 11 true).
Proof.
  cbv zeta. split; [apply archive_ends_at|]. split; [done|]. split; [done|]. split; [split; [apply archive_go|]; wrap_with 20|].
  split; [vm_compute; reflexivity|]. split; vm_compute; reflexivity.
Qed.

(** A Body that announces nine bytes of a Body of five. *)
Example C57_example_nested :
  let E := demo [] in
  let h := fst (history E 0 (initial []) [NewString "hello"; Call 1 (Read (buf 4))]) in
  let b := BBytes {| by_data := bs "hello"; by_offset := 4; by_eof := false; by_closed := false |} in
  let N := nest E 0 1 b id in
  let cs := [Call 1 (Seek (-2) 2); Call 1 BytesRemaining; Call 1 (Read (buf 1)); Call 1 (Seek 3 0); Call 1 BytesRemaining; Call 1 (Read (buf 9)); Call 1 Close] in
  let x := exec N 0 (initial (upper h)) (NewReaderLen 0 9) in
  let y := history N 0 (fst x) cs in
  seekable_below E 0 h 1 b id (bs "hello") false /\
  wrapped_once N 0 0 (upper h) (fst x) 1 cs (fst y) (snd y) /\ announces N 0 (fst x) 1 (Z.of_nat 9) /\
  snd y = [ORet (RSeek 7 None); ORet (RInt 2); ORet (RRead 0 (buf 1) (Some EOF)); ORet (RSeek 3 None); ORet (RInt 4);
           ORet (RRead 2 (bs "lo" ++ buf 7) (Some EOF)); ORet (RErr None)].
Proof.
  cbv zeta. split.
  { left. split; [|done]. exists (initial []), (NewString "hello"), (fst (exec (demo []) 0 (initial []) (NewString "hello"))), [Call 1 (Read (buf 4))], [ORet (RRead 4 (bs "hell") None)].
    split; [right; left; by exists "hello"%string|]. split; [vm_compute; congruence|]. split; [vm_compute; reflexivity|].
    split; [repeat constructor; vm_compute; congruence|]. split; [vm_compute; reflexivity|]. split; vm_compute; reflexivity. }
  split; [split; [apply NestProofs.nest_go, demo_go|]; wrap_with 9|]. split; [vm_compute; reflexivity|].
  vm_compute. reflexivity.
Qed.
