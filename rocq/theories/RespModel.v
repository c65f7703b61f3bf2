(** * Model of the packages response and handler (and body's encoders)

    The state is one record holding the Body heap of [Lang.v], header maps, slices
    of strings, Builders, Responses and ResponseWriters.  Goroutines other than the
    running one do not exist here. *)
From stdpp Require Export gmap.
From Verif Require Export PanicModel Text.

(** ** ResponseWriters *)
(** Identity of an http.ResponseWriter made outside (by net/http, say). *)
Definition uid := nat.
Definition mid := nat.
Bind Scope nat_scope with uid mid.

(** Which interfaces its dynamic type implements. *)
Record wcaps := { wc_pusher : bool; wc_flusher : bool; wc_closenotifier : bool; wc_hijacker : bool; wc_readerfrom : bool }.

(** The outside world: Readers and Writers ([u_env]), ResponseWriters,
    PageGenerators, and functions of libraries that are not modelled.  Everything
    may depend on and change a state [V].

    [u_readfrom] is the ReadFrom method of a ResponseWriter.  It is called
    repeatedly, first with None; each time it either makes a call on the source
    it was given, whose outcome it gets next, or returns or panics. *)
Record uenv (V : Type) := {
  u_env : env V;                                            (* [ev_write] is Write *)
  u_hazard : hazard V;                                      (* which calls on Readers panic *)
  u_caps : uid -> wcaps;
  u_map : V -> uid -> mid;                                  (* Header() *)
  u_writeheader : V -> uid -> Z -> V * option panic;
  u_push : V -> uid -> string -> V * (option error + panic);
  u_flush : V -> uid -> V * option panic;
  u_readfrom : V -> uid -> option (out res) -> V * (op + (Z * option error + panic));
  u_redirect : V -> nat -> Z -> string -> V * ((option mid * option nat) + panic);
  u_error : V -> nat -> Z -> error -> V * ((option mid * option nat) + panic);
  u_onpanic : V -> bool -> panic -> V * option panic;       (* handler.OnPanic *)
  u_mime : string -> option string;                         (* ParseMediaType, FormatMediaType *)
  u_statustext : Z -> string;                               (* http.StatusText *)
  u_grow : nat -> nat                                       (* spare capacity after append *)
}.
Arguments u_env {V}. Arguments u_hazard {V}. Arguments u_caps {V}. Arguments u_map {V}. Arguments u_writeheader {V}. Arguments u_push {V}.
Arguments u_flush {V}. Arguments u_readfrom {V}. Arguments u_redirect {V}. Arguments u_error {V}.
Arguments u_onpanic {V}. Arguments u_mime {V}. Arguments u_statustext {V}. Arguments u_grow {V}.

(** response/writer.go:44-50, 119, 129: basicWriter, flushWriter and fancyWriter *)
Inductive wkind := KBasic | KFlush | KFancy.
Record wrapper := {
  ww_kind : wkind; ww_next : uid;
  ww_bytes : Z; ww_status : Z; ww_isHEAD : bool; ww_sawError : bool }.

(** An io.Writer: io.Discard, one made outside, or one made by NewWriter. *)
Inductive wobj := WDiscard | WRaw (u : uid) | WWrap (x : wrapper).

(** What an observer sees: calls on outside ResponseWriters, where [by_] is the
    wrapper making the call, and calls of WriteHeader on a wrapper. *)
Inductive uev :=
| UAsked (k : wid) (status : Z)                                        (* WriteHeader on wrapper [k] *)
| UHeader (by_ : option wid) (u : uid) (status : Z) (res : option panic)
| UWrite (by_ : option wid) (u : uid) (p : bytes) (res : Z * option error + panic)
| UPush (by_ : option wid) (u : uid) (url : string) (res : option error + panic)
| UFlush (by_ : option wid) (u : uid) (res : option panic)
| UReadFrom (by_ : option wid) (u : uid) (b : nat)                     (* the call *)
| UReadFromEnd (by_ : option wid) (u : uid) (res : Z * option error + panic).  (* its end *)

Record wst (V : Type) := { v_v : V; v_objs : list wobj; v_log : list uev }.
Arguments v_v {V}. Arguments v_objs {V}. Arguments v_log {V}. Arguments Build_wst {V}.

Section Writer.
Context {V : Type} (U : uenv V).
Notation wst := (wst V).

Definition put_v (w : wst) (v : V) : wst := {| v_v := v; v_objs := v_objs w; v_log := v_log w |}.
Definition put_obj (w : wst) (k : wid) (x : wrapper) : wst :=
  {| v_v := v_v w; v_objs := <[k := WWrap x]> (v_objs w); v_log := v_log w |}.
Definition note (w : wst) (v : V) (e : uev) : wst := {| v_v := v; v_objs := v_objs w; v_log := v_log w ++ [e] |}.

(** Results of calls: a value or a panic. *)
Definition wm (A : Type) : Type := wst -> wst * (A + panic).
Definition wret {A} (a : A) : wm A := fun w => (w, inl a).
Definition wpanic {A} (e : panic) : wm A := fun w => (w, inr e).
Definition wbind {A B} (m : wm A) (k : A -> wm B) : wm B :=
  fun w => match m w with (w', inl a) => k a w' | (w', inr e) => (w', inr e) end.
Definition wassert (b : bool) : wm unit := if b then wret tt else wpanic PAssert.
Definition wget (k : wid) : wm wrapper :=
  fun w => match v_objs w !! k with Some (WWrap x) => (w, inl x) | _ => (w, inr PNil) end.
Definition wput (k : wid) (x : wrapper) : wm unit := fun w => (put_obj w k x, inl tt).
Definition wnote (e : uev) : wm unit := fun w => (note w (v_v w) e, inl tt).
Definition opt_panic (o : option panic) : unit + panic := match o with Some e => inr e | None => inl tt end.

(** Calls on outside ResponseWriters. *)
Definition raw_WriteHeader (by_ : option wid) (u : uid) (status : Z) : wm unit := fun w =>
  let '(v, x) := u_writeheader U (v_v w) u status in (note w v (UHeader by_ u status x), opt_panic x).
Definition raw_Write (by_ : option wid) (u : uid) (p : bytes) : wm (Z * option error) := fun w =>
  let '(v, x) := ev_write (u_env U) (v_v w) u p in (note w v (UWrite by_ u p x), x).
Definition raw_Push (by_ : option wid) (u : uid) (url : string) : wm (option error) := fun w =>
  let '(v, x) := u_push U (v_v w) u url in (note w v (UPush by_ u url x), x).
Definition raw_Flush (by_ : option wid) (u : uid) : wm unit := fun w =>
  let '(v, x) := u_flush U (v_v w) u in (note w v (UFlush by_ u x), opt_panic x).

Notation "x <~ m ;; k" := (wbind m (fun x => k)) (at level 100, m at next level, right associativity).
Notation "' p <~ m ;; k" := (wbind m (fun x => match x with p => k end))
  (at level 100, p pattern, m at next level, right associativity).

Definition with_status (x : wrapper) (s : Z) : wrapper :=
  {| ww_kind := ww_kind x; ww_next := ww_next x; ww_bytes := ww_bytes x; ww_status := s;
     ww_isHEAD := ww_isHEAD x; ww_sawError := ww_sawError x |}.
Definition with_sawError (x : wrapper) : wrapper :=
  {| ww_kind := ww_kind x; ww_next := ww_next x; ww_bytes := ww_bytes x; ww_status := ww_status x;
     ww_isHEAD := ww_isHEAD x; ww_sawError := true |}.
Definition with_bytes (x : wrapper) (n : Z) : wrapper :=
  {| ww_kind := ww_kind x; ww_next := ww_next x; ww_bytes := n; ww_status := ww_status x;
     ww_isHEAD := ww_isHEAD x; ww_sawError := ww_sawError x |}.

(** writer.go:56-59 *)
Definition writeHeaderImpl (k : wid) (status : Z) : wm unit :=
  x <~ wget k ;;
  _ <~ wput k (with_status x status) ;;
  raw_WriteHeader (Some k) (ww_next x) status.

(** writer.go:61-68 *)
Definition wrap_MaybeWriteHeader (k : wid) (status : Z) : wm unit :=
  _ <~ wassert (status >=? 100) ;;
  _ <~ wassert (status <=? 999) ;;
  x <~ wget k ;;
  if negb (ww_status x =? 0) then wret tt else
  writeHeaderImpl k status.

(** writer.go:70-79 *)
Definition wrap_WriteHeader (k : wid) (status : Z) : wm unit :=
  _ <~ wnote (UAsked k status) ;;
  _ <~ wassert (status >=? 100) ;;
  _ <~ wassert (status <=? 999) ;;
  x <~ wget k ;;
  if negb (ww_status x =? 0) then
    _ <~ wput k (with_sawError x) ;;
    wpanic PAssert
  else
  writeHeaderImpl k status.

Definition StatusOK : Z := 200.
Definition StatusNoContent : Z := 204.
Definition StatusInternalServerError : Z := 500.

(** writer.go:81-95 *)
Definition wrap_Write (k : wid) (p : bytes) : wm (Z * option error) :=
  _ <~ wrap_MaybeWriteHeader k StatusOK ;;
  x <~ wget k ;;
  if ww_isHEAD x || (ww_status x =? StatusNoContent) then wret (zlen p, None) else
  '(n, err) <~ raw_Write (Some k) (ww_next x) p ;;
  _ <~ wassert (n >=? 0) ;;
  x <~ wget k ;;
  let x := with_bytes x (wrap64 (ww_bytes x + n)) in
  _ <~ wput k (match err with Some _ => with_sawError x | None => x end) ;;
  wret (n, err).

(** writer.go:97-102 *)
Definition wrap_Push (k : wid) (url : string) : wm (option error) :=
  x <~ wget k ;;
  if wc_pusher (u_caps U (ww_next x)) then raw_Push (Some k) (ww_next x) url
  else wret (Some ErrNotSupported).

(** writer.go:123-127, 156-160.  The type assertion to http.Flusher fails if the
    outside writer does not implement it. *)
Definition wrap_Flush (k : wid) : wm unit :=
  _ <~ wrap_MaybeWriteHeader k StatusOK ;;
  x <~ wget k ;;
  if wc_flusher (u_caps U (ww_next x)) then raw_Flush (Some k) (ww_next x) else wpanic PNil.

(** Write on any io.Writer; io.Discard accepts everything. *)
Definition any_Write (k : wid) (p : bytes) : wm (Z * option error) := fun w =>
  match v_objs w !! k with
  | None => (w, inr PNil)
  | Some WDiscard => (w, inl (zlen p, None))
  | Some (WRaw u) => raw_Write None u p w
  | Some (WWrap _) => wrap_Write k p w
  end.

(** The world as seen by Bodies. *)
Definition wenv : env wst :=
  {| ev_caps := ev_caps (u_env U);
     ev_read := fun w r p => let '(v, x) := ev_read (u_env U) (v_v w) r p in (put_v w v, x);
     ev_readat := fun w r p off => let '(v, x) := ev_readat (u_env U) (v_v w) r p off in (put_v w v, x);
     ev_seek := fun w r off wh => let '(v, x) := ev_seek (u_env U) (v_v w) r off wh in (put_v w v, x);
     ev_close := fun w r => let '(v, x) := ev_close (u_env U) (v_v w) r in (put_v w v, x);
     ev_stat := fun w r => let '(v, x) := ev_stat (u_env U) (v_v w) r in (put_v w v, x);
     ev_write := fun w k p => any_Write k p w |}.
Definition whazard : hazard wst := fun w c =>
  match u_hazard U (v_v w) c with Some (v, e) => Some (put_v w v, e) | None => None end.
(** A call of package body, with Readers that may panic (PanicModel.v). *)
Definition uexec (fuel : nat) (h : heap wst) (c : cmd) : heap wst * out res := xexec wenv whazard fuel h c.

End Writer.

(** ** The whole state *)

(** A []string: window [sl_off, sl_off + sl_len) of an array, of capacity [sl_cap];
    the nil slice has no array. *)
Record slice_ := { sl_arr : option nat; sl_off : nat; sl_len : nat; sl_cap : nat }.
Definition nil_slice : slice_ := {| sl_arr := None; sl_off := 0; sl_len := 0; sl_cap := 0 |}.

(** builder.go:23-29.  [bd_gen]: nil or a PageGenerator made outside. *)
Record builder := { bd_gen : option nat; bd_code : Z; bd_hdrs : option mid; bd_body : option nat; bd_err : option error }.
Definition new_builder : builder := {| bd_gen := None; bd_code := 0; bd_hdrs := None; bd_body := None; bd_err := None |}.

(** response.go:15-20 *)
Record response := { rp_code : Z; rp_hdrs : option mid; rp_body : option nat; rp_err : option error }.
Definition zero_response : response := {| rp_code := 0; rp_hdrs := None; rp_body := None; rp_err := None |}.

(** What Prometheus and OnPanic are told (adaptor.go:88-107); times are left out. *)
Inductive metric :=
| MPanics                       (* PromPanicsTotal.Inc() *)
| MRequests (code : string)     (* PromRequestsTotal.With(code).Inc() *)
| MLatency (code : string)
| MRecvBytes (code : string) (n : Z)
| MSendBytes (code : string) (n : Z)
| MLatencyHist | MRecvHist (n : Z) | MSendHist (n : Z)
| MOnPanic (wrapped : bool) (e : panic). (* OnPanic(e), or OnPanic(PanicError{e}) *)

Record state (V : Type) := {
  s_h : heap (wst V);
  s_maps : list (gmap string slice_);
  s_arrs : list (list string);
  s_bds : list builder;
  s_rps : list response;
  s_met : list metric }.
Arguments s_h {V}. Arguments s_maps {V}. Arguments s_arrs {V}. Arguments s_bds {V}. Arguments s_rps {V}. Arguments s_met {V}.
Arguments Build_state {V}.

(** Replies. *)
Inductive reply :=
| YUnit
| YBody (r : res)                       (* of a call on a Body *)
| YInt (n : Z) | YBool (b : bool)
| YCount (n : Z) (err : option error)
| YErr (err : option error)
| YHandle (h : option nat)              (* a Body, Builder, Response, Writer, map, ResponseWriter *)
| YNew (h : option nat) (err : option error).

Section Resp.
Context {V : Type} (U : uenv V) (fuel : nat).
Notation wst := (wst V).
Notation state := (state V).
Notation E := (wenv U).

Definition M (A : Type) : Type := state -> state * out A.
Definition yret {A} (a : A) : M A := fun s => (s, ORet a).
Definition mpanic {A} (e : panic) : M A := fun s => (s, OPanic e).
Definition mspin {A} : M A := fun s => (s, OSpin).
Definition ybind {A B} (m : M A) (k : A -> M B) : M B :=
  fun s => match m s with
           | (s', ORet a) => k a s'
           | (s', OPanic e) => (s', OPanic e)
           | (s', OSpin) => (s', OSpin)
           end.
Definition massert (b : bool) : M unit := if b then yret tt else mpanic PAssert.
Definition of_opt {A} (o : option A) : M A := match o with Some a => yret a | None => mpanic PNil end.

Notation "x <~ m ;; k" := (ybind m (fun x => k)) (at level 100, m at next level, right associativity).
Notation "' p <~ m ;; k" := (ybind m (fun x => match x with p => k end))
  (at level 100, p pattern, m at next level, right associativity).
Notation "m ~~ k" := (ybind m (fun _ => k)) (at level 100, right associativity).

Definition put_h (s : state) (h : heap wst) : state :=
  {| s_h := h; s_maps := s_maps s; s_arrs := s_arrs s; s_bds := s_bds s; s_rps := s_rps s; s_met := s_met s |}.
Definition put_maps (s : state) x : state :=
  {| s_h := s_h s; s_maps := x; s_arrs := s_arrs s; s_bds := s_bds s; s_rps := s_rps s; s_met := s_met s |}.
Definition put_arrs (s : state) x : state :=
  {| s_h := s_h s; s_maps := s_maps s; s_arrs := x; s_bds := s_bds s; s_rps := s_rps s; s_met := s_met s |}.
Definition put_bds (s : state) x : state :=
  {| s_h := s_h s; s_maps := s_maps s; s_arrs := s_arrs s; s_bds := x; s_rps := s_rps s; s_met := s_met s |}.
Definition put_rps (s : state) x : state :=
  {| s_h := s_h s; s_maps := s_maps s; s_arrs := s_arrs s; s_bds := s_bds s; s_rps := x; s_met := s_met s |}.
Definition put_met (s : state) x : state :=
  {| s_h := s_h s; s_maps := s_maps s; s_arrs := s_arrs s; s_bds := s_bds s; s_rps := s_rps s; s_met := x |}.
Definition heap_w (h : heap wst) (w : wst) : heap wst := {| h_b := h_b h; h_c := h_c h; h_w := w; h_log := h_log h |}.

(** Lifting calls on Bodies and Writers. *)
Definition on_heap {A} (m : prog A) : M A := fun s => let '(h, o) := run E (s_h s) m in (put_h s h, o).
Definition on_writer {A} (m : wm A) : M A := fun s =>
  let '(w, x) := m (h_w (s_h s)) in
  (put_h s (heap_w (s_h s) w), match x with inl a => ORet a | inr e => OPanic e end).
Definition outside {A} (m : V -> V * (A + panic)) : M A := fun s =>
  let w := h_w (s_h s) in
  let '(v, x) := m (v_v w) in
  (put_h s (heap_w (s_h s) (put_v w v)), match x with inl a => ORet a | inr e => OPanic e end).
Definition body_cmd (c : cmd) : M res := fun s => let '(h, o) := uexec U fuel (s_h s) c in (put_h s h, o).
Definition body_call (b : option nat) (f : op) : M res :=
  i <~ of_opt b ;; body_cmd (Call i f).

(** ** body/body.go: encoders *)

(** body.go:173-209.  [src] is what the encoder produces, an argument.  In the
    compact case nothing is copied as [dst] has length 0. *)
Definition crlf_loop (dst src : bytes) : bytes :=
  fold_left (fun dst ch => if Ascii.eqb ch "010" then dst ++ ["013"%char; "010"%char] else dst ++ [ch]) src dst.
Definition fromJSONImpl (src : bytes + error) (isPretty : bool) : prog nat :=
  match src with
  | inr err => Panic (PError err)
  | inl src =>
      let dst := if isPretty then crlf_loop [] src else go_copy [] src in
      FromBytes dst
  end.
(** body.go:158-171 *)
Definition FromJSON (src : bytes + error) : prog nat := fromJSONImpl src false.
Definition FromPrettyJSON (src : bytes + error) : prog nat := fromJSONImpl src true.
(** body.go:218-227, 239-255.  [raw]: what Marshal returns; None for a nil message. *)
Definition FromProto (raw : option (bytes + error)) : prog nat :=
  match raw with
  | None => Panic PAssert
  | Some (inr err) => Panic (PError err)
  | Some (inl raw) => FromBytes raw
  end.

(** ** Header maps: net/http's Header *)
Definition the_map (m : mid) : M (gmap string slice_) := fun s =>
  match s_maps s !! m with Some x => (s, ORet x) | None => (s, OPanic PNil) end.
Definition put_map (m : mid) (x : gmap string slice_) : M unit := fun s => (put_maps s (<[m := x]> (s_maps s)), ORet tt).
Definition make_map (x : gmap string slice_) : M mid := fun s => (put_maps s (s_maps s ++ [x]), ORet (length (s_maps s))).

Definition contents_of (arrs : list (list string)) (v : slice_) : list string :=
  match sl_arr v with
  | Some a => match arrs !! a with Some l => take (sl_len v) (drop (sl_off v) l) | None => [] end
  | None => []
  end.
(** []string{l...} with [extra] unused capacity *)
Definition make_slice (l : list string) (extra : nat) : M slice_ := fun s =>
  (put_arrs s (s_arrs s ++ [l ++ replicate extra EmptyString]),
   ORet {| sl_arr := Some (length (s_arrs s)); sl_off := 0; sl_len := length l; sl_cap := length l + extra |}).
(** append(v, x) *)
Definition append_to (v : slice_) (x : string) : M slice_ := fun s =>
  match sl_arr v with
  | Some a =>
      if (sl_len v <? sl_cap v)%nat then
        (put_arrs s (<[a := <[(sl_off v + sl_len v)%nat := x]> (default [] (s_arrs s !! a))]> (s_arrs s)),
         ORet {| sl_arr := Some a; sl_off := sl_off v; sl_len := S (sl_len v); sl_cap := sl_cap v |})
      else make_slice (contents_of (s_arrs s) v ++ [x]) (u_grow U (sl_len v)) s
  | None => make_slice [x] (u_grow U 0) s
  end.

(** Header.Set, Add, Del *)
Definition hdr_Set (m : mid) (key value : string) : M unit :=
  x <~ the_map m ;;
  v <~ make_slice [value] 0 ;;
  put_map m (<[CanonicalHeaderKey key := v]> x).
Definition hdr_Add (m : mid) (key value : string) : M unit :=
  x <~ the_map m ;;
  v <~ append_to (default nil_slice (x !! CanonicalHeaderKey key)) value ;;
  put_map m (<[CanonicalHeaderKey key := v]> x).
Definition hdr_Del (m : mid) (key : string) : M unit :=
  x <~ the_map m ;;
  put_map m (delete (CanonicalHeaderKey key) x).

(** ** response/util.go *)

(** util.go:9-17 *)
Definition copyStrings (v : slice_) : M slice_ := fun s =>
  if (sl_len v =? 0)%nat then (s, ORet nil_slice)
  else make_slice (contents_of (s_arrs s) v) 0 s.
(** util.go:19-34.  The order in which the keys are visited is that of
    [map_to_list]; it does not matter as each key gets a slice of its own. *)
Fixpoint copy_entries (l : list (string * slice_)) (dst : gmap string slice_) : M (gmap string slice_) :=
  match l with
  | [] => yret dst
  | (k, v) :: l => v' <~ copyStrings v ;; copy_entries l (<[k := v']> dst)
  end.
Definition copyHeaders (src : option mid) : M (option mid) :=
  match src with
  | None => yret None
  | Some m =>
      x <~ the_map m ;;
      if bool_decide (x = ∅) then yret None else
      dst <~ copy_entries (map_to_list x) ∅ ;;
      m' <~ make_map dst ;;
      yret (Some m')
  end.
(** util.go:36-42 *)
Definition copyBody (src : option nat) : M (option nat * option error) :=
  match src with
  | None => yret (None, None)
  | Some i =>
      r <~ body_cmd (Call i Copy) ;;
      match r with RBody j err => yret (Some j, err) | _ => mpanic PNil end
  end.

(** ** response/pagegen.go *)
Definition crlf : string := String "013" (String "010" EmptyString).
Definition redirect_text (location : string) : string :=
  let esc := EscapeString location in
  "<!DOCTYPE html>" +:+ crlf +:+ "<p>Redirecting to <a href=""" +:+ esc +:+ """>" +:+ esc +:+ "</a>...</p>" +:+ crlf.
Definition slen (s : string) : Z := Z.of_nat (String.length s).
(** pagegen.go:18-33 *)
Definition default_redirect (code : Z) (location : string) : M (option mid * option nat) :=
  let text := redirect_text location in
  m <~ make_map ∅ ;;
  hdr_Set m "Location" location ~~
  hdr_Set m "Content-Type" "text/html; charset=utf-8" ~~
  hdr_Set m "Content-Length" (itoa (slen text)) ~~
  hdr_Set m "Cache-Control" "max-age=86400, must-revalidate" ~~
  b <~ on_heap (FromBytes (list_ascii_of_string text)) ;;
  yret (Some m, Some b).
(** pagegen.go:35-46 *)
Definition error_text (code : Z) : string := itoa code +:+ " " +:+ u_statustext U code +:+ crlf.
Definition default_error (code : Z) : M (option mid * option nat) :=
  let text := error_text code in
  m <~ make_map ∅ ;;
  hdr_Set m "Content-Type" "text/plain; charset=utf-8" ~~
  hdr_Set m "Content-Length" (itoa (slen text)) ~~
  hdr_Set m "Cache-Control" "no-cache" ~~
  b <~ on_heap (FromBytes (list_ascii_of_string text)) ;;
  yret (Some m, Some b).
Definition gen_redirect (gen : option nat) (code : Z) (location : string) : M (option mid * option nat) :=
  match gen with
  | None => default_redirect code location
  | Some g => outside (fun v => u_redirect U v g code location)
  end.
Definition gen_error (gen : option nat) (code : Z) (err : error) : M (option mid * option nat) :=
  match gen with
  | None => default_error code
  | Some g => outside (fun v => u_error U v g code err)
  end.

(** ** response/builder.go *)
Definition the_bd (b : nat) : M builder := fun s =>
  match s_bds s !! b with Some x => (s, ORet x) | None => (s, OPanic PNil) end.
Definition set_bd (b : nat) (x : builder) : M unit := fun s => (put_bds s (<[b := x]> (s_bds s)), ORet tt).
Definition make_bd (x : builder) : M nat := fun s => (put_bds s (s_bds s ++ [x]), ORet (length (s_bds s))).

Definition bd_set_hdrs (x : builder) (m : option mid) : builder :=
  {| bd_gen := bd_gen x; bd_code := bd_code x; bd_hdrs := m; bd_body := bd_body x; bd_err := bd_err x |}.
Definition bd_set_body (x : builder) (i : option nat) : builder :=
  {| bd_gen := bd_gen x; bd_code := bd_code x; bd_hdrs := bd_hdrs x; bd_body := i; bd_err := bd_err x |}.

(** builder.go:19-21 *)
Definition NewBuilder : M nat := make_bd new_builder.
(** builder.go:49-54 *)
Definition bd_Headers (b : nat) : M mid :=
  x <~ the_bd b ;;
  match bd_hdrs x with
  | Some m => yret m
  | None => m <~ make_map ∅ ;; set_bd b (bd_set_hdrs x (Some m)) ~~ yret m
  end.
(** builder.go:75-79; nil is rejected *)
Definition bd_WithPageGenerator (b : nat) (gen : option nat) : M unit :=
  x <~ the_bd b ;;
  match gen with
  | None => mpanic PAssert
  | Some g => set_bd b {| bd_gen := Some g; bd_code := bd_code x; bd_hdrs := bd_hdrs x; bd_body := bd_body x; bd_err := bd_err x |}
  end.
(** builder.go:85-90 *)
Definition bd_WithStatus (b : nat) (code : Z) : M unit :=
  x <~ the_bd b ;;
  massert (code >=? 200) ~~
  massert (code <=? 999) ~~
  set_bd b {| bd_gen := bd_gen x; bd_code := code; bd_hdrs := bd_hdrs x; bd_body := bd_body x; bd_err := bd_err x |}.
(** builder.go:97-100 *)
Definition bd_WithHeaders (b : nat) (hdrs : option mid) : M unit :=
  x <~ the_bd b ;;
  m <~ copyHeaders hdrs ;;
  set_bd b (bd_set_hdrs x m).
(** builder.go:103-112 *)
Definition bd_WithHeader (b : nat) (name value : string) (appendToExisting : bool) : M unit :=
  massert (negb (String.eqb name "")) ~~
  m <~ bd_Headers b ;;
  if appendToExisting then hdr_Add m name value else hdr_Set m name value.
(** builder.go:115-120 *)
Definition bd_WithoutHeader (b : nat) (name : string) : M unit :=
  massert (negb (String.eqb name "")) ~~
  m <~ bd_Headers b ;;
  hdr_Del m name.
(** builder.go:123-137.  The argument of the panics wraps mime's error. *)
Definition bd_WithContentType (b : nat) (str : string) : M unit :=
  match u_mime U str with
  | None => mpanic (PError (External 0))
  | Some str => m <~ bd_Headers b ;; hdr_Set m "Content-Type" str
  end.
(** builder.go:140-153 *)
Definition bd_WithContentLanguage (b : nat) (str : string) : M unit :=
  m <~ bd_Headers b ;; hdr_Set m "Content-Language" (TrimSpace str).
Definition bd_WithContentEncoding (b : nat) (str : string) : M unit :=
  m <~ bd_Headers b ;; hdr_Set m "Content-Encoding" (TrimSpace str).
(** builder.go:156-165 *)
Definition bd_WithETag (b : nat) (tag : string) (isStrong : bool) : M unit :=
  let str := if negb isStrong then "W/" else "" in
  let str := str +:+ """" +:+ tag +:+ """" in
  m <~ bd_Headers b ;; hdr_Set m "Etag" str.
(** builder.go:168-175 *)
Definition bd_WithDigest (b : nat) (algo : string) (sum : bytes) : M unit :=
  massert (negb (String.eqb algo "")) ~~
  massert (zlen sum >? 0) ~~
  m <~ bd_Headers b ;; hdr_Add m "Digest" (algo +:+ "=" +:+ b64_encode sum).
(** builder.go:181-185 *)
Definition bd_WithBody (b : nat) (i : option nat) : M unit :=
  x <~ the_bd b ;;
  match i with
  | None => mpanic PAssert
  | Some i => set_bd b (bd_set_body x (Some i))
  end.
(** builder.go:192-229 *)
Definition bd_encoded (b : nat) (mk : prog nat) (ctype : string) : M unit :=
  i <~ on_heap mk ;;
  x <~ the_bd b ;;
  set_bd b (bd_set_body x (Some i)) ~~
  m <~ bd_Headers b ;; hdr_Set m "Content-Type" ctype.
Definition bd_WithJSON (b : nat) (src : bytes + error) : M unit := bd_encoded b (FromJSON src) "application/json".
Definition bd_WithPrettyJSON (b : nat) (src : bytes + error) : M unit := bd_encoded b (FromPrettyJSON src) "application/json".
Definition bd_WithProto (b : nat) (raw : option (bytes + error)) : M unit :=
  bd_encoded b (FromProto raw) "application/vnd.google.protobuf".
Definition bd_WithProtoText (b : nat) (raw : option (bytes + error)) : M unit :=
  bd_encoded b (FromProto raw) "text/plain; charset=utf-8".
(** builder.go:235-238 *)
Definition bd_WithError (b : nat) (err : option error) : M unit :=
  x <~ the_bd b ;;
  set_bd b {| bd_gen := bd_gen x; bd_code := bd_code x; bd_hdrs := bd_hdrs x; bd_body := bd_body x; bd_err := err |}.
(** builder.go:241-256 *)
Definition bd_RedirectPage (b : nat) (code : Z) (location : string) : M unit :=
  let location := TrimSpace location in
  massert (code >=? 300) ~~
  massert (code <=? 399) ~~
  massert (negb (String.eqb location "")) ~~
  x <~ the_bd b ;;
  '(h, i) <~ gen_redirect (bd_gen x) code location ;;
  set_bd b {| bd_gen := bd_gen x; bd_code := code; bd_hdrs := h; bd_body := i; bd_err := None |}.
(** builder.go:259-272 *)
Definition bd_ErrorPage (b : nat) (code : Z) (err : option error) : M unit :=
  massert (code >=? 200) ~~
  massert (code <=? 999) ~~
  match err with
  | None => mpanic PAssert
  | Some err =>
      x <~ the_bd b ;;
      '(h, i) <~ gen_error (bd_gen x) code err ;;
      set_bd b {| bd_gen := bd_gen x; bd_code := code; bd_hdrs := h; bd_body := i; bd_err := Some err |}
  end.
(** builder.go:275-291 *)
Definition bd_Copy (b : nat) : M (option nat * option error) :=
  x <~ the_bd b ;;
  '(body2, err) <~ copyBody (bd_body x) ;;
  match err with
  | Some e => yret (None, Some e)
  | None =>
      hdrs2 <~ copyHeaders (bd_hdrs x) ;;
      b2 <~ make_bd {| bd_gen := bd_gen x; bd_code := bd_code x; bd_hdrs := hdrs2; bd_body := body2; bd_err := bd_err x |} ;;
      yret (Some b2, None)
  end.
(** builder.go:309-355 *)
Definition make_rp (x : response) : M nat := fun s => (put_rps s (s_rps s ++ [x]), ORet (length (s_rps s))).
Definition contentType : string := CanonicalHeaderKey "Content-Type".
Definition contentLength : string := CanonicalHeaderKey "Content-Length".
Definition fill_in (m : mid) (key value : string) : M unit :=
  x <~ the_map m ;;
  match x !! key with
  | Some _ => yret tt
  | None => v <~ make_slice [value] 0 ;; put_map m (<[key := v]> x)
  end.
Definition bd_Build (b : nat) : M nat :=
  x <~ the_bd b ;;
  massert (match bd_body x with Some _ => true | None => false end) ~~
  set_bd b {| bd_gen := bd_gen x; bd_code := 0; bd_hdrs := None; bd_body := None; bd_err := None |} ~~
  let code := if bd_code x =? 0 then StatusOK else bd_code x in
  hdrs <~ match bd_hdrs x with Some m => yret m | None => make_map ∅ end ;;
  fill_in hdrs contentType "application/octet-stream" ~~
  r <~ body_call (bd_body x) BytesRemaining ;;
  match r with
  | RInt bodyLen =>
      (if bodyLen >=? 0 then fill_in hdrs contentLength (itoa bodyLen) else yret tt) ~~
      make_rp {| rp_code := code; rp_hdrs := Some hdrs; rp_body := bd_body x; rp_err := bd_err x |}
  | _ => mpanic PNil
  end.

(** ** response/writer.go: NewWriter and methods that involve a source *)
Definition set_objs (w : wst) x : wst := {| v_v := v_v w; v_objs := x; v_log := v_log w |}.
Definition is_fancy (c : wcaps) : bool := wc_closenotifier c && wc_hijacker c && wc_flusher c && wc_readerfrom c.
(** writer.go:23-42.  Of the types implementing Writer only those of this package
    are modelled. *)
Definition NewWriter (k : option wid) (isHEAD : bool) : M wid := fun s =>
  match k with
  | None => (s, OPanic PAssert)
  | Some k =>
      match v_objs (h_w (s_h s)) !! k with
      | Some (WWrap _) => (s, ORet k)
      | Some (WRaw u) =>
          let kind := if is_fancy (u_caps U u) then KFancy else if wc_flusher (u_caps U u) then KFlush else KBasic in
          let x := {| ww_kind := kind; ww_next := u; ww_bytes := 0; ww_status := 0; ww_isHEAD := isHEAD; ww_sawError := false |} in
          let w := h_w (s_h s) in
          (put_h s (heap_w (s_h s) (set_objs w (v_objs w ++ [WWrap x]))), ORet (length (v_objs w)))
      | _ => (s, OPanic PNil)
      end
  end.

Definition lookup_w (k : wid) : M wobj := fun s =>
  match v_objs (h_w (s_h s)) !! k with Some x => (s, ORet x) | None => (s, OPanic PNil) end.
Definition lookup_wrap (k : wid) : M wrapper :=
  o <~ lookup_w k ;; match o with WWrap x => yret x | _ => mpanic PNil end.

(** ReadFrom of an outside ResponseWriter: any calls on the source, then an answer. *)
Fixpoint readfrom_loop (n : nat) (u : uid) (b : option nat) (last : option (out res)) : M (Z * option error + panic) :=
  match n with
  | O => mspin
  | S n => fun s =>
      let w := h_w (s_h s) in
      let '(v, x) := u_readfrom U (v_v w) u last in
      let s := put_h s (heap_w (s_h s) (put_v w v)) in
      match x with
      | inr ans => (s, ORet ans)
      | inl f =>
          match body_call b f s with
          | (s, OSpin) => (s, OSpin)
          | (s, o) => readfrom_loop n u b (Some o) s
          end
      end
  end.
Definition log_u (e : uev) : M unit := fun s =>
  let w := h_w (s_h s) in (put_h s (heap_w (s_h s) (note w (v_v w) e)), ORet tt).
Definition raw_ReadFrom (by_ : option wid) (u : uid) (b : option nat) : M (Z * option error) :=
  i <~ of_opt b ;;
  log_u (UReadFrom by_ u i) ~~
  x <~ readfrom_loop fuel u b None ;;
  log_u (UReadFromEnd by_ u x) ~~
  match x with inl r => yret r | inr e => mpanic e end.

(** io.Copy(dst, src) of Go 1.17, io.go:384-438 with buf = nil: the loop.  The
    buffer is not cleared between rounds. *)
Fixpoint copy_loop (n : nat) (k : wid) (b : option nat) (buf : bytes) (written : Z) : M (Z * option error) :=
  match n with
  | O => mspin
  | S n =>
      r <~ body_call b (Read buf) ;;
      match r with
      | RRead nr buf er =>
          '(stop, written) <~
            (if nr >? 0 then
               p <~ (fun s => match slice buf 0 nr with Some p => (s, ORet p) | None => (s, OPanic PRange) end) ;;
               '(nw, ew) <~ on_writer (any_Write U k p) ;;
               let bad := (nw <? 0) || (nr <? nw) in
               let nw' := if bad then 0 else nw in
               let ew' := if bad then match ew with None => Some ErrInvalidWrite | _ => ew end else ew in
               let written := wrap64 (written + nw') in
               match ew' with
               | Some e => yret (Some (Some e), written)
               | None => if negb (nr =? nw') then yret (Some (Some ErrShortWrite), written) else yret (None, written)
               end
             else yret (None, written)) ;;
          match stop with
          | Some err => yret (written, err)
          | None =>
              match er with
              | Some EOF => yret (written, None)
              | Some e => yret (written, Some e)
              | None => copy_loop n k b buf written
              end
          end
      | _ => mpanic PNil
      end
  end.
Definition copy_buffer : bytes := replicate (32 * 1024) zero_byte.
Definition discard_buffer : bytes := replicate (8 * 1024) zero_byte.
(** io.Discard.ReadFrom, io.go:605-618 *)
Fixpoint discard_loop (n : nat) (b : option nat) (buf : bytes) (total : Z) : M (Z * option error) :=
  match n with
  | O => mspin
  | S n =>
      r <~ body_call b (Read buf) ;;
      match r with
      | RRead nr buf er =>
          let total := wrap64 (total + nr) in
          match er with
          | Some EOF => yret (total, None)
          | Some e => yret (total, Some e)
          | None => discard_loop n b buf total
          end
      | _ => mpanic PNil
      end
  end.
(** The dynamic type of the source decides whether it is an io.WriterTo. *)
Definition is_WriterTo (o : bobj) : bool :=
  match o with BClosed | BEmpty _ | BBytes _ => true | BSeeker _ | BReaderAt _ | BBuffered _ => false end.
Definition lookup_b (b : option nat) : M bobj := fun s =>
  match b with
  | Some i => match h_b (s_h s) !! i with Some o => (s, ORet o) | None => (s, OPanic PNil) end
  | None => (s, OPanic PNil)
  end.
Definition write_to (k : wid) (b : option nat) : M (Z * option error) :=
  r <~ body_call b (WriteTo k) ;;
  match r with RWriteTo n err => yret (n, err) | _ => mpanic PNil end.
(** io.Copy(io.Discard, src); io.Discard is Writer 0 *)
Definition copy_discard (b : option nat) : M (Z * option error) :=
  o <~ lookup_b b ;;
  if is_WriterTo o then write_to 0 b else discard_loop fuel b discard_buffer 0.

(** writer.go:141-154 *)
Definition wrap_ReadFrom (k : wid) (b : option nat) : M (Z * option error) :=
  on_writer (wrap_MaybeWriteHeader U k StatusOK) ~~
  x <~ lookup_wrap k ;;
  if ww_isHEAD x || (ww_status x =? StatusNoContent) then copy_discard b else
  if negb (wc_readerfrom (u_caps U (ww_next x))) then mpanic PNil else
  '(n, err) <~ raw_ReadFrom (Some k) (ww_next x) b ;;
  massert (n >=? 0) ~~
  x <~ lookup_wrap k ;;
  on_writer (wput k (with_bytes x (wrap64 (ww_bytes x + n)))) ~~
  yret (n, err).

(** Methods of any http.ResponseWriter. *)
Definition any_WriteHeader (k : wid) (status : Z) : M unit :=
  o <~ lookup_w k ;;
  match o with
  | WDiscard => mpanic PNil
  | WRaw u => on_writer (raw_WriteHeader U None u status)
  | WWrap _ => on_writer (wrap_WriteHeader U k status)
  end.
Definition any_Header (k : wid) : M mid := fun s =>
  let w := h_w (s_h s) in
  match v_objs w !! k with
  | Some (WRaw u) => (s, ORet (u_map U (v_v w) u))
  | Some (WWrap x) => (s, ORet (u_map U (v_v w) (ww_next x)))    (* writer.go:52-54 *)
  | _ => (s, OPanic PNil)
  end.
Definition any_Pusher (o : wobj) : bool :=
  match o with WDiscard => false | WRaw u => wc_pusher (u_caps U u) | WWrap _ => true end.
Definition any_Push (k : wid) (url : string) : M (option error) :=
  o <~ lookup_w k ;;
  match o with
  | WDiscard => mpanic PNil
  | WRaw u => on_writer (raw_Push U None u url)
  | WWrap _ => on_writer (wrap_Push U k url)
  end.
Definition any_ReaderFrom (o : wobj) : bool :=
  match o with
  | WDiscard => true
  | WRaw u => wc_readerfrom (u_caps U u)
  | WWrap x => match ww_kind x with KFancy => true | _ => false end
  end.
Definition any_ReadFrom (k : wid) (b : option nat) : M (Z * option error) :=
  o <~ lookup_w k ;;
  match o with
  | WDiscard => discard_loop fuel b discard_buffer 0
  | WRaw u => raw_ReadFrom None u b
  | WWrap _ => wrap_ReadFrom k b
  end.

(** io.Copy(dst, src) *)
Definition io_Copy (k : wid) (b : option nat) : M (Z * option error) :=
  o <~ lookup_b b ;;
  if is_WriterTo o then write_to k b else
  w <~ lookup_w k ;;
  if any_ReaderFrom w then any_ReadFrom k b else
  copy_loop fuel k b copy_buffer 0.

(** ** response/response.go *)
Definition headerPush : string := CanonicalHeaderKey "Push".
Definition the_rp (r : nat) : M response := fun s =>
  match s_rps s !! r with Some x => (s, ORet x) | None => (s, OPanic PNil) end.
(** response.go:63-76 *)
Definition rp_Copy (x : response) : M (option nat * option error) :=
  '(body2, err) <~ copyBody (rp_body x) ;;
  match err with
  | Some e => yret (None, Some e)
  | None =>
      r <~ make_rp {| rp_code := rp_code x; rp_hdrs := rp_hdrs x; rp_body := body2; rp_err := rp_err x |} ;;
      yret (Some r, None)
  end.
(** response.go:79-105.  A nil header map has no entries. *)
Fixpoint push_all (k : wid) (urls : list string) : M (option error) :=
  match urls with
  | [] => yret None
  | url :: urls =>
      err <~ any_Push k url ;;
      match err with
      | Some e => if negb (errors_Is e ErrNotSupported) then yret (Some e) else push_all k urls
      | None => push_all k urls
      end
  end.
Definition map_or_nil (m : option mid) : M (gmap string slice_) :=
  match m with Some m => the_map m | None => yret ∅ end.
Definition contents (v : slice_) : M (list string) := fun s => (s, ORet (contents_of (s_arrs s) v)).
(** The loop at response.go:91-95 visits the keys in no particular order; as they
    are distinct the result is the union.  A nil destination map panics only if
    there is an entry to write. *)
Definition copy_to (m : mid) (src : gmap string slice_) : M unit :=
  let src := delete headerPush src in
  if bool_decide (src = ∅) then yret tt else
  dst <~ the_map m ;;
  put_map m (src ∪ dst).
Definition rp_Serve (x : response) (k : wid) : M (option error) :=
  o <~ lookup_w k ;;
  perr <~ (if any_Pusher o then
             hdrs <~ map_or_nil (rp_hdrs x) ;;
             urls <~ contents (default nil_slice (hdrs !! headerPush)) ;;
             push_all k urls
           else yret None) ;;
  match perr with
  | Some e => yret (Some e)
  | None =>
      h <~ any_Header k ;;
      hdrs <~ map_or_nil (rp_hdrs x) ;;
      copy_to h hdrs ~~
      any_WriteHeader k (rp_code x) ~~
      '(_, err) <~ io_Copy k (rp_body x) ;;
      r <~ body_call (rp_body x) Close ;;
      match r with
      | RErr err2 => yret (match err with None => err2 | _ => err end)
      | _ => mpanic PNil
      end
  end.

(** ** What a client can do *)
Inductive bdop :=
| WithPageGenerator (gen : option nat) | WithStatus (code : Z) | WithHeaders (hdrs : option mid)
| WithHeader (name value : string) (appendToExisting : bool) | WithoutHeader (name : string)
| WithContentType (str : string) | WithContentLanguage (str : string) | WithContentEncoding (str : string)
| WithETag (tag : string) (isStrong : bool) | WithDigest (algo : string) (sum : bytes)
| WithBody (i : option nat) | WithJSON (src : bytes + error) | WithPrettyJSON (src : bytes + error)
| WithProto (raw : option (bytes + error)) | WithProtoText (raw : option (bytes + error))
| WithError (err : option error)
| RedirectPage (code : Z) (location : string) | ErrorPage (code : Z) (err : option error).
Definition bd_do (b : nat) (f : bdop) : M unit :=
  match f with
  | WithPageGenerator g => bd_WithPageGenerator b g
  | WithStatus c => bd_WithStatus b c
  | WithHeaders h => bd_WithHeaders b h
  | WithHeader n v a => bd_WithHeader b n v a
  | WithoutHeader n => bd_WithoutHeader b n
  | WithContentType s => bd_WithContentType b s
  | WithContentLanguage s => bd_WithContentLanguage b s
  | WithContentEncoding s => bd_WithContentEncoding b s
  | WithETag t s => bd_WithETag b t s
  | WithDigest a s => bd_WithDigest b a s
  | WithBody i => bd_WithBody b i
  | WithJSON s => bd_WithJSON b s
  | WithPrettyJSON s => bd_WithPrettyJSON b s
  | WithProto r => bd_WithProto b r
  | WithProtoText r => bd_WithProtoText b r
  | WithError e => bd_WithError b e
  | RedirectPage c l => bd_RedirectPage b c l
  | ErrorPage c e => bd_ErrorPage b c e
  end.

(** Operations on header maps a client can do itself. *)
Inductive hop :=
| HSet (m : mid) (key : string) (l : list string) (extra : nat)     (* m[key] = a new slice *)
| HShare (m : mid) (key : string) (m' : mid) (key' : string)        (* m[key] = m'[key'] *)
| HElem (m : mid) (key : string) (i : nat) (value : string)         (* m[key][i] = value *)
| HAppend (m : mid) (key value : string)                            (* m[key] = append(m[key], value) *)
| HCut (m : mid) (key : string) (i j : nat)                         (* m[key] = m[key][i:j] *)
| HDelete (m : mid) (key : string).                                 (* delete(m, key) *)
Definition h_do (f : hop) : M unit :=
  match f with
  | HSet m key l extra => x <~ the_map m ;; v <~ make_slice l extra ;; put_map m (<[key := v]> x)
  | HShare m key m' key' =>
      x <~ the_map m ;; y <~ the_map m' ;; put_map m (<[key := default nil_slice (y !! key')]> x)
  | HElem m key i value =>
      x <~ the_map m ;;
      let v := default nil_slice (x !! key) in
      match sl_arr v with
      | Some a => if (i <? sl_len v)%nat
                  then fun s => (put_arrs s (<[a := <[(sl_off v + i)%nat := value]> (default [] (s_arrs s !! a))]> (s_arrs s)), ORet tt)
                  else mpanic PRange
      | None => mpanic PRange
      end
  | HAppend m key value =>
      x <~ the_map m ;; v <~ append_to (default nil_slice (x !! key)) value ;; put_map m (<[key := v]> x)
  | HCut m key i j =>
      x <~ the_map m ;;
      let v := default nil_slice (x !! key) in
      if (i <=? j)%nat && (j <=? sl_cap v)%nat then
        put_map m (<[key := {| sl_arr := sl_arr v; sl_off := sl_off v + i; sl_len := j - i; sl_cap := sl_cap v - i |}]> x)
      else mpanic PRange
  | HDelete m key => x <~ the_map m ;; put_map m (delete key x)
  end.

Inductive wop :=
| WHeader | WWriteHeader (status : Z) | WMaybeWriteHeader (status : Z) | WWrite (p : bytes) | WPush (url : string)
| WFlush | WReadFrom (b : nat) | WStatus | WBytesWritten | WSawError | WUnwrap.
(** [WUnwrap] names the outside writer by its [uid]. *)
Definition w_do (k : wid) (f : wop) : M reply :=
  o <~ lookup_w k ;;
  match f, o with
  | WHeader, _ => m <~ any_Header k ;; yret (YHandle (Some m))
  | WWriteHeader c, _ => any_WriteHeader k c ~~ yret YUnit
  | WWrite p, _ => '(n, err) <~ on_writer (any_Write U k p) ;; yret (YCount n err)
  | WPush url, _ => if any_Pusher o then err <~ any_Push k url ;; yret (YErr err) else mpanic PNil
  | WReadFrom b, _ => if any_ReaderFrom o then '(n, err) <~ any_ReadFrom k (Some b) ;; yret (YCount n err) else mpanic PNil
  | WFlush, WRaw u => if wc_flusher (u_caps U u) then on_writer (raw_Flush U None u) ~~ yret YUnit else mpanic PNil
  | WFlush, WWrap x =>
      match ww_kind x with KBasic => mpanic PNil | _ => on_writer (wrap_Flush U k) ~~ yret YUnit end
  | WMaybeWriteHeader c, WWrap _ => on_writer (wrap_MaybeWriteHeader U k c) ~~ yret YUnit
  | WStatus, WWrap x => yret (YInt (ww_status x))               (* writer.go:104-106 *)
  | WBytesWritten, WWrap x => yret (YInt (ww_bytes x))          (* writer.go:108-110 *)
  | WSawError, WWrap x => yret (YBool (ww_sawError x))          (* writer.go:112-114 *)
  | WUnwrap, WWrap x => yret (YHandle (Some (ww_next x)))       (* writer.go:116-118 *)
  | _, _ => mpanic PNil                                         (* no such method *)
  end.

Inductive rcmd :=
| RB (c : cmd)                                  (* Body constructors and methods *)
| RJSON (src : bytes + error) (pretty : bool) | RProto (raw : option (bytes + error))
| RNewMap | RMap (f : hop)
| RNewBuilder | RBuilder (b : nat) (f : bdop) | RHeaders (b : nat) | RCopyBuilder (b : nat) | RBuild (b : nat)
| RCopy (r : nat) | RServe (r : nat) (k : wid) | RHeadersOf (r : nat) | RStatusOf (r : nat)
| RNewWriter (k : option wid) (isHEAD : bool) | RWriter (k : wid) (f : wop).
Definition rdo (c : rcmd) : M reply :=
  match c with
  | RB c => r <~ body_cmd c ;; yret (YBody r)
  | RJSON src pretty => i <~ on_heap (fromJSONImpl src pretty) ;; yret (YBody (RBody i None))
  | RProto raw => i <~ on_heap (FromProto raw) ;; yret (YBody (RBody i None))
  | RNewMap => m <~ make_map ∅ ;; yret (YHandle (Some m))
  | RMap f => h_do f ~~ yret YUnit
  | RNewBuilder => b <~ NewBuilder ;; yret (YHandle (Some b))
  | RBuilder b f => bd_do b f ~~ yret YUnit
  | RHeaders b => m <~ bd_Headers b ;; yret (YHandle (Some m))
  | RCopyBuilder b => '(b2, err) <~ bd_Copy b ;; yret (YNew b2 err)
  | RBuild b => r <~ bd_Build b ;; yret (YHandle (Some r))
  | RCopy r => x <~ the_rp r ;; '(r2, err) <~ rp_Copy x ;; yret (YNew r2 err)
  | RServe r k => x <~ the_rp r ;; err <~ rp_Serve x k ;; yret (YErr err)
  | RHeadersOf r => x <~ the_rp r ;; yret (YHandle (rp_hdrs x))
  | RStatusOf r => x <~ the_rp r ;; yret (YInt (rp_code x))
  | RNewWriter k isHEAD => k <~ NewWriter k isHEAD ;; yret (YHandle (Some k))
  | RWriter k f => w_do k f
  end.

(** ** handler/adaptor.go *)

(** An inner Handler: makes calls, then returns a Response (a struct: one built
    before, or the zero value) or panics (None: panic(nil)).  It may be given
    access to anything. *)
Inductive handler :=
| HReturn (r : option nat)
| HPanic (e : option panic)
| HDo (c : rcmd) (k : out reply -> handler).
Fixpoint run_handler (f : handler) (s : state) : state * (out response + unit) :=
  match f with
  | HReturn None => (s, inl (ORet zero_response))
  | HReturn (Some r) => match s_rps s !! r with Some x => (s, inl (ORet x)) | None => (s, inl (OPanic PNil)) end
  | HPanic (Some e) => (s, inl (OPanic e))
  | HPanic None => (s, inr tt)
  | HDo c k =>
      match rdo c s with
      | (s, OSpin) => (s, inl OSpin)
      | (s, o) => run_handler (k o) s
      end
  end.
Definition is_go_error (e : panic) : bool := match e with PUser _ => false | _ => true end.
Definition met (e : metric) : M unit := fun s => (put_met s (s_met s ++ [e]), ORet tt).
Fixpoint mets (l : list metric) : M unit := match l with [] => yret tt | e :: l => met e ~~ mets l end.
(** adaptor.go:79-108, the deferred function; [pv] is the recovered value.  In Go
    1.17 recover returns nil after panic(nil). *)
Definition adaptor_defer (ww : wid) (pv : option panic) : M unit :=
  x <~ lookup_wrap ww ;;
  let code := itoa (ww_status x) in
  let sendBytes := ww_bytes x in
  on_writer (wrap_MaybeWriteHeader U ww StatusInternalServerError) ~~
  mets (match pv with Some _ => [MPanics] | None => [] end ++
        [MRequests code; MLatency code; MRecvBytes code 0; MSendBytes code sendBytes;
         MLatencyHist; MRecvHist 0; MSendHist sendBytes]) ~~
  match pv with
  | None => yret tt
  | Some e =>
      met (MOnPanic (negb (is_go_error e)) e) ~~
      outside (fun v => let '(v, x) := u_onpanic U v (negb (is_go_error e)) e in (v, opt_panic x))
  end.
(** adaptor.go:75-115 *)
Definition ServeHTTP (inner : handler) (k : option wid) (isHEAD : bool) : M unit := fun s =>
  match NewWriter k isHEAD s with
  | (s, ORet ww) =>
      let '(s, x) :=
        match run_handler inner s with
        | (s, inr tt) => (s, inr tt)
        | (s, inl (ORet x)) =>
            match rp_Serve x ww s with
            | (s, ORet (Some e)) => (s, inl (OPanic (PError e)))
            | (s, ORet None) => (s, inl (ORet tt))
            | (s, OPanic e) => (s, inl (OPanic e))
            | (s, OSpin) => (s, inl OSpin)
            end
        | (s, inl (OPanic e)) => (s, inl (OPanic e))
        | (s, inl OSpin) => (s, inl OSpin)
        end in
      match x with
      | inl OSpin => (s, OSpin)
      | inl (OPanic e) => adaptor_defer ww (Some e) s
      | inl (ORet tt) | inr tt => adaptor_defer ww None s
      end
  | (s, OPanic e) => (s, OPanic e)
  | (s, OSpin) => (s, OSpin)
  end.

Inductive tcmd := TDo (c : rcmd) | TServe (inner : handler) (k : option wid) (isHEAD : bool).
Definition texec (c : tcmd) : M reply :=
  match c with
  | TDo c => rdo c
  | TServe inner k isHEAD => ServeHTTP inner k isHEAD ~~ yret YUnit
  end.
Fixpoint thistory (s : state) (cs : list tcmd) : state * list (out reply) :=
  match cs with
  | [] => (s, [])
  | c :: cs =>
      let '(s', o) := texec c s in
      match o with
      | OSpin => (s', [OSpin])
      | _ => let '(s'', os) := thistory s' cs in (s'', o :: os)
      end
  end.

(** A program that has been handed [n] ResponseWriters (numbered from 1; their
    [uid]s from 0) and [m] header maps. *)
Definition tinitial (v : V) (n : nat) (maps : list (gmap string slice_)) (arrs : list (list string)) : state :=
  {| s_h := initial {| v_v := v; v_objs := WDiscard :: map WRaw (seq 0 n); v_log := [] |};
     s_maps := maps; s_arrs := arrs; s_bds := []; s_rps := []; s_met := [] |}.

End Resp.
