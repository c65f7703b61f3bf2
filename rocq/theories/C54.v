(** * C54 — A Reader's panic costs the program one call *)
From stdpp Require Import gmap.
From Verif Require Import PanicSpec PanicWitness.
From Verif Require PanicProofs.

(** [P] says which calls on Readers panic; the program recovers and goes on.  All
    theorems but the last two are about Readers that do not panic in Close. *)

(** If the Readers obey the rules when they do return, no Body ever panics by
    itself, whatever panics there have been before: the value of every panic is
    one a Reader has raised, and the call was a constructor, a Read or a ReadAt. *)
Theorem C54_no_other_panic :
  forall (W : Type) (E : env W) (P : hazard W) (fuel : nat),
  go_env E -> spares_close P ->
  forall h c h' e,
  rule_abiding E -> xreaches E P fuel h -> go_cmd c -> known h c ->
  xexec E P fuel h c = (h', OPanic e) -> raised P e /\ may_panic c.
Proof. exact @PanicProofs.no_other_panic. Qed.
Print Assumptions C54_no_other_panic.

(** C02 and C03 hold of the calls that did not panic: a call that panicked has
    moved no cursor and changed no answer, of this family or (taking their Readers
    for [r]) of others. *)
Theorem C54_readerat_cursors :
  forall (W : Type) (E : env W) (P : hazard W) (fuel : nat),
  go_env E -> spares_close P ->
  forall (r : rid) (live : W -> Prop) (d : bytes) (early : bool) (w : W) h1 i cs h2 os (D : Z),
  serves_at E r live d early -> cp_readerat (ev_caps E r) = true -> keeps P live ->
  live w -> xwrapped_once E P fuel r w h1 i cs h2 os -> announces E fuel h1 i D -> 0 <= D <= zlen d ->
  fam_trace (first_bytes r early D d) {[ i := At 0 false ]} (fst (without_panics cs os)) (snd (without_panics cs os)).
Proof. exact @PanicProofs.xcursors_at. Qed.
Print Assumptions C54_readerat_cursors.

Theorem C54_seeker_cursors :
  forall (W : Type) (E : env W) (P : hazard W) (fuel : nat),
  go_env E -> spares_close P ->
  forall (r : rid) (live : W -> Prop) (d : bytes) (early : bool) (w : W) h1 i cs h2 os (D : Z),
  serves_seek E r live d early -> cp_readerat (ev_caps E r) = false /\ cp_seeker (ev_caps E r) = true -> keeps P live ->
  live w -> xwrapped_once E P fuel r w h1 i cs h2 os -> announces E fuel h1 i D -> 0 <= D <= zlen d ->
  fam_trace (first_bytes r early D d) {[ i := At 0 false ]} (fst (without_panics cs os)) (snd (without_panics cs os)).
Proof. exact @PanicProofs.xcursors_seek. Qed.
Print Assumptions C54_seeker_cursors.

(** C04 and C13 likewise, for any Reader: the stream is that of the Reads that
    have returned, among them those made in a call that panicked later on. *)
Theorem C54_one_stream :
  forall (W : Type) (E : env W) (P : hazard W) (fuel : nat),
  go_env E -> spares_close P ->
  forall (r : rid) (w : W) h1 i cs h2 os (D : Z),
  xwrapped_once E P fuel r w h1 i cs h2 os -> streaming E fuel r h1 i D ->
  let L := calls_on r (h_log h2) in
  polite r D L /\ (0 <= D -> zlen (stream L) <= D) /\
  stream_trace (exists ev, ev ∈ L /\ lies ev) (final_answer D (stream L) (terminal D L) r) {[ i := At 0 false ]}
    (fst (without_panics cs os)) (snd (without_panics cs os)).
Proof. exact @PanicProofs.xone_stream. Qed.
Print Assumptions C54_one_stream.

(** If the Reader streams [d], and a Read that panics takes nothing from the
    stream, no byte is lost or served twice. *)
Theorem C54_ideal_cursors :
  forall (W : Type) (E : env W) (P : hazard W) (fuel : nat),
  go_env E -> spares_close P ->
  forall (r : rid) (gp : W -> nat) (d : bytes) (er : error) (w : W) h1 i cs h2 os (D : Z),
  streams E r gp d er -> holds_position P gp -> gp w = 0%nat ->
  xwrapped_once E P fuel r w h1 i cs h2 os -> streaming E fuel r h1 i D ->
  exists e', end_error D d er e' /\
  stream_trace False (final_answer D (cut D d) (Some e') r) {[ i := At 0 false ]} (fst (without_panics cs os)) (snd (without_panics cs os)).
Proof. exact @PanicProofs.xfaithful. Qed.
Print Assumptions C54_ideal_cursors.

(** A panic in Close, any heap: the Body of a seekable Reader is closed all the
    same, and no other Body is changed. *)
Theorem C54_close_seekable :
  forall (W : Type) (E : env W) (P : hazard W) (fuel : nat) h i b h' e,
  h_b h !! i = Some b -> seekable_kind b = true -> xexec E P fuel h (Call i Close) = (h', OPanic e) ->
  (forall f, (forall x, f <> WriteTo x) -> xexec E P fuel h' (Call i f) = (h', ORet (closed_answer f))) /\
  (forall j b', j <> i -> h_b h !! j = Some b' -> h_b h' !! j = Some b').
Proof. exact @PanicProofs.close_seekable. Qed.
Print Assumptions C54_close_seekable.

(** But not the Body of a plain Reader (buffered.go:233-246 marks it closed after
    the Reader's Close has returned, and by then buffered.go:50-57 has taken the
    shared object apart): it looks open, Read and Copy panic by themselves, and
    Close must be called a second time. *)
Theorem C54_close_refuted :
  exists (h h' : heap (nat * bool)) e,
  xreaches pipe shutter 9 h /\ rule_abiding pipe /\ raised shutter e /\
  xexec pipe shutter 9 h (Call 1 Close) = (h', OPanic e) /\
  snd (xexec pipe shutter 9 h' (Call 1 (Read (buf 1)))) = OPanic PRange /\ ~ raised shutter PRange /\
  snd (xexec pipe shutter 9 h' (Call 1 Copy)) = OPanic PNil /\
  snd (xexec pipe shutter 9 h' (Call 1 Close)) = ORet (RErr None) /\ ORet (RErr None) <> ORet (closed_answer Close).
Proof.
  exists (fst (xhistory pipe shutter 9 (initial (0%nat, false)) [NewReader 0; Call 1 (Read (buf 2))])). eexists. exists (PUser 7).
  split. { exists (0%nat, false), [NewReader 0; Call 1 (Read (buf 2))]. eexists. split; [repeat constructor; vm_compute; done|].
    split; [apply surjective_pairing|]. split; vm_compute; done. }
  split. { exact pipe_rules. }
  split; [exists (0%nat, false), (XClose 0); eexists; reflexivity|].
  split; [vm_compute; reflexivity|]. split; [vm_compute; reflexivity|].
  split. { intros (w & c & w' & Hr). unfold shutter, once in Hr. by destruct (_ && _). }
  split; [vm_compute; reflexivity|]. split; [vm_compute; reflexivity|]. done.
Qed.
Print Assumptions C54_close_refuted.

(** ReadAt panics once, in the Read of a copy; the same Read works afterwards. *)
Example C54_example_seekable :
  let E := flagged (archive (bs "hello world") random_access true (Some 3%nat)) in
  let P := once (fun (_ : bool * nat) c => match c with XReadAt _ _ off => 4 <=? off | _ => false end) in
  let cs := [Call 1 (Read (buf 4)); Call 1 Copy; Call 2 (Read (buf 9)); Call 2 (Read (buf 9)); Call 1 BytesRemaining; Call 1 (Read (buf 2)); Call 2 Close; Call 1 Close] in
  let x := xexec E P 0 (initial (false, 0%nat, false)) (NewReaderLen 0 9) in
  let y := xhistory E P 0 (fst x) cs in
  spares_close P /\ serves_at E 0 (fun w => alive w.1) (bs "hello world") true /\ cp_readerat (ev_caps E 0) = true /\ keeps P (fun w => alive w.1) /\
  xwrapped_once E P 0 0 (false, 0%nat, false) (fst x) 1 cs (fst y) (snd y) /\ announces E 0 (fst x) 1 9 /\
  snd y = [ORet (RRead 4 (bs "hell") None); ORet (RBody 2 None); OPanic (PUser 7); ORet (RRead 5 (bs "o wor" ++ buf 4) (Some EOF));
           ORet (RInt 5); ORet (RRead 2 (bs "o ") None); ORet (RErr None); ORet (RErr None)].
Proof.
  cbv zeta. split; [by apply once_spares|]. split; [apply flagged_serves_at, archive_serves_at|]. split; [done|]. split; [apply once_keeps|]. split.
  { split; [apply flagged_go, archive_go|]. exists [], []. eexists _, (NewReaderLen 0 9).
    split; [repeat constructor; vm_compute; done|]. split; [repeat constructor; intros [|[? ?]]; congruence|]. split; [right; by eexists|].
    split; [vm_compute; reflexivity|]. split; [vm_compute; reflexivity|]. split; [apply surjective_pairing|]. split; vm_compute; done. }
  split; vm_compute; reflexivity.
Qed.
(** The same with Seek, called to go back after another copy has moved on. *)
Example C54_example_seeker :
  let E := flagged (archive (bs "hello world") seekable false None) in
  let P := once (fun (w : bool * nat) c => match c with XRead _ _ => (w.2 =? 4)%nat | _ => false end) in
  let cs := [Call 1 (Read (buf 4)); Call 1 Copy; Call 2 (Read (buf 9)); Call 2 (Read (buf 9)); Call 1 (ReadAt (buf 3) 0)] in
  let x := xexec E P 0 (initial (false, 0%nat, false)) (NewReaderLen 0 9) in
  let y := xhistory E P 0 (fst x) cs in
  spares_close P /\ serves_seek E 0 (fun w => alive w.1) (bs "hello world") false /\
  (cp_readerat (ev_caps E 0) = false /\ cp_seeker (ev_caps E 0) = true) /\ keeps P (fun w => alive w.1) /\
  xwrapped_once E P 0 0 (false, 0%nat, false) (fst x) 1 cs (fst y) (snd y) /\ announces E 0 (fst x) 1 9 /\
  snd y = [ORet (RRead 4 (bs "hell") None); ORet (RBody 2 None); OPanic (PUser 7); ORet (RRead 5 (bs "o wor" ++ buf 4) (Some EOF));
           ORet (RRead 3 (bs "hel") None)].
Proof.
  cbv zeta. split; [by apply once_spares|]. split; [apply flagged_serves_seek, archive_serves_seek; vm_compute; done|]. split; [done|]. split; [apply once_keeps|]. split.
  { split; [apply flagged_go, archive_go|]. exists [], []. eexists _, (NewReaderLen 0 9).
    split; [repeat constructor; vm_compute; done|]. split; [repeat constructor; intros [|[? ?]]; congruence|]. split; [right; by eexists|].
    split; [vm_compute; reflexivity|]. split; [vm_compute; reflexivity|]. split; [apply surjective_pairing|]. split; vm_compute; done. }
  split; vm_compute; reflexivity.
Qed.
(** The second chunk panics when it is fetched first.  The first chunk, fetched in
    the same Read, is kept and served by the next. *)
Example C54_example_stream :
  let E := pipe in
  let P := once (fun (w : nat) c => match c with XRead _ _ => (w =? 3)%nat | _ => false end) in
  let cs := [Call 1 (Read (buf 2)); Call 1 Copy; Call 1 (Read (buf 1)); Call 1 (Read (buf 9)); Call 2 (Read (buf 2)); Call 2 Close; Call 1 Close] in
  let x := xexec E P 9 (initial (0%nat, false)) (NewReader 0) in
  let y := xhistory E P 9 (fst x) cs in
  spares_close P /\ streams E 0 (fun w => Nat.min w.1 5) (bs "hello") (External 7) /\ holds_position P (fun w => Nat.min w.1 5) /\
  xwrapped_once E P 9 0 (0%nat, false) (fst x) 1 cs (fst y) (snd y) /\ streaming E 9 0 (fst x) 1 (-1) /\
  snd y = [OPanic (PUser 7); ORet (RBody 2 None); ORet (RRead 1 (bs "h") None); ORet (RRead 4 (bs "ello" ++ buf 5) (Some (External 7)));
           ORet (RRead 2 (bs "he") None); ORet (RErr None); ORet (RErr None)] /\
  calls_on 0 (h_log (fst y)) =
    [EvRead 0 65536 3 (bs "hel") None; EvRead 0 65536 2 (bs "lo") None; EvRead 0 65534 0 [] (Some (External 7)); EvClose 0 None].
Proof.
  cbv zeta. split; [by apply once_spares|].
  split; [apply (flagged_streams _ 0 (fun w => Nat.min w 5)); by apply (lone_streams {| so_data := bs "hello"; so_caps := plain; so_chunk := 3; so_last := External 7; so_close := None |}); cbn; lia|].
  split; [apply (once_holds _ (fun w => Nat.min w 5))|]. split.
  { split; [apply flagged_go, lone_go|]. exists [], []. eexists _, (NewReader 0).
    split; [repeat constructor; vm_compute; done|]. split; [repeat constructor; intros [|[? ?]]; congruence|]. split; [by left|].
    split; [vm_compute; reflexivity|]. split; [vm_compute; reflexivity|]. split; [apply surjective_pairing|]. split; vm_compute; done. }
  split; [split; vm_compute; reflexivity|]. split; vm_compute; reflexivity.
Qed.
(** After this panic another Read of the same kind panics no more, and Bodies
    elsewhere never did. *)
Example C54_example_no_other :
  let E := pipe in
  let P := once (fun (w : nat) c => match c with XRead _ _ => (w =? 3)%nat | _ => false end) in
  let h := fst (xhistory E P 9 (initial (0%nat, false)) [NewReader 0; NewBytes (bs "x")]) in
  rule_abiding E /\ xreaches E P 9 h /\ known h (Call 1 (Read (buf 2))) /\ snd (xexec E P 9 h (Call 1 (Read (buf 2)))) = OPanic (PUser 7) /\
  snd (xexec E P 9 (fst (xexec E P 9 h (Call 1 (Read (buf 2))))) (Call 1 (Read (buf 2)))) = ORet (RRead 2 (bs "he") None).
Proof.
  cbv zeta. split; [exact pipe_rules|]. split.
  { exists (0%nat, false), [NewReader 0; NewBytes (bs "x")]. eexists. split; [repeat constructor; vm_compute; done|].
    split; [apply surjective_pairing|]. split; vm_compute; done. }
  split; [vm_compute; lia|]. split; vm_compute; reflexivity.
Qed.
(** Close of a seekable Reader panics. *)
Example C54_example_close :
  let E := flagged (archive (bs "hello world") random_access true (Some 3%nat)) in
  let P := once (fun (_ : bool * nat) c => match c with XClose _ => true | _ => false end) in
  let h := fst (xhistory E P 0 (initial (false, 0%nat, false)) [NewReaderLen 0 9; NewBytes (bs "x")]) in
  let x := xexec E P 0 h (Call 1 Close) in
  (exists b, h_b h !! 1%nat = Some b /\ seekable_kind b = true) /\ snd x = OPanic (PUser 7) /\
  snd (xexec E P 0 (fst x) (Call 1 Close)) = ORet (RErr (Some ErrClosed)) /\ snd (xexec E P 0 (fst x) (Call 2 (Read (buf 1)))) = ORet (RRead 1 (bs "x") None).
Proof. cbv zeta. split; [eexists; split; vm_compute; reflexivity|]. split; [vm_compute; reflexivity|]. split; vm_compute; reflexivity. Qed.
