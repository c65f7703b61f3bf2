(** * Vocabulary for what Serve delivers *)
From stdpp Require Import gmap.
From Verif Require Export ServeSpec SourceSpec.

(** ** Programs Go can run

    As [go_cmd]: no slice is longer than [max_slice]; and what the outside world
    hands in is of the right type. *)
Definition go_bdop {V} (U : uenv V) (f : bdop) : Prop :=
  match f with
  | RedirectPage _ l => Z.of_nat (String.length (redirect_text (TrimSpace l))) <= max_slice
  | ErrorPage c _ => Z.of_nat (String.length (error_text U c)) <= max_slice
  | _ => forall src ctype g, encoding_of f = Some (Some (inl src), ctype, g) -> zlen (g src) <= max_slice
  end.
Definition go_rcmd {V} (U : uenv V) (c : rcmd) : Prop :=
  match c with
  | RB c => go_cmd c
  | RJSON (inl src) true => zlen (crlf_of src) <= max_slice
  | RProto (Some (inl d)) => zlen d <= max_slice
  | RBuilder _ f => go_bdop U f
  | _ => True
  end.
(** Readers do not panic here. *)
Definition go_uenv {V} (U : uenv V) : Prop :=
  go_env (u_env U) /\ (forall v u last v' f, u_readfrom U v u last = (v', inl f) -> go_op f) /\ forall v c, u_hazard U v c = None.

(** Every command of a program with handlers. *)
Fixpoint each (P : rcmd -> Prop) (f : handler) : Prop :=
  match f with
  | HReturn _ | HPanic _ => True
  | HDo c k => P c /\ forall o, each P (k o)
  end.
Definition each_in (P : rcmd -> Prop) (c : tcmd) : Prop :=
  match c with TDo c => P c | TServe f _ _ => each P f end.

(** The command does not make a Body of the Reader [r]. *)
Definition spares (r : rid) (c : rcmd) : Prop := match c with RB c => ~ wraps r c | _ => True end.

(** As [wrapped_once], for programs that use Builders, Responses, Writers and
    Adaptors as well, and all their handlers. *)
Definition wrapped_in {V} (U : uenv V) (fuel : nat) (r : rid) (v : V) (s1 : state V) (i : nat)
    (cs : list tcmd) (s2 : state V) (os : list (out reply)) : Prop :=
  go_uenv U /\
  exists n maps arrs cs0 os0 s0 new,
    Forall (each_in (go_rcmd U)) (cs0 ++ cs) /\ Forall (each_in (spares r)) (cs0 ++ cs) /\ go_cmd new /\ wraps r new /\
    thistory U fuel (tinitial v n maps arrs) cs0 = (s0, os0) /\
    texec U fuel (TDo (RB new)) s0 = (s1, ORet (YBody (RBody i None))) /\
    thistory U fuel s1 cs = (s2, os) /\ feasible (s_h s2).

(** ** The outside world *)
(** Whatever ResponseWriters, PageGenerators and OnPanic do relates the states
    before and after by [R]. *)
Record calm {V} (U : uenv V) (R : V -> V -> Prop) : Prop := {
  ca_write : forall v u p, R v (ev_write (u_env U) v u p).1;
  ca_writeheader : forall v u st, R v (u_writeheader U v u st).1;
  ca_push : forall v u url, R v (u_push U v u url).1;
  ca_flush : forall v u, R v (u_flush U v u).1;
  ca_readfrom : forall v u last, R v (u_readfrom U v u last).1;
  ca_redirect : forall v g c l, R v (u_redirect U v g c l).1;
  ca_error : forall v g c e, R v (u_error U v g c e).1;
  ca_onpanic : forall v b e, R v (u_onpanic U v b e).1
}.

(** ** Reading a Body to its end

    [reads U fuel s i R]: calls of Read on Body [i], with buffers of any size, give
    the bytes [R] and then EOF. *)
Inductive reads {V} (U : uenv V) (fuel : nat) : state V -> nat -> bytes -> Prop :=
| reads_end s i p s' n q :
    zlen p <= max_slice -> feasible (s_h s') ->
    texec U fuel (TDo (RB (Call i (Read p)))) s = (s', ORet (YBody (RRead n q (Some EOF)))) ->
    reads U fuel s i (take (Z.to_nat n) q)
| reads_more s i p s' n q R :
    zlen p <= max_slice -> feasible (s_h s') ->
    texec U fuel (TDo (RB (Call i (Read p)))) s = (s', ORet (YBody (RRead n q None))) ->
    reads U fuel s' i R ->
    reads U fuel s i (take (Z.to_nat n) q ++ R).

(** ** A ResponseWriter that accepts everything

    [got] are the bytes it has received.  Write accepts all of them; WriteHeader
    and Push do not fail, except that pushes may not be supported; ReadFrom, if
    there is one, reads with non-empty buffers until EOF.  Nobody but its own
    methods changes what it got. *)
Record accepting {V} (U : uenv V) (u : uid) (got : V -> bytes) : Prop := {
  ac_write : forall v p, exists v', ev_write (u_env U) v u p = (v', inl (zlen p, None)) /\ got v' = got v ++ p;
  ac_header : forall v st, exists v', u_writeheader U v u st = (v', None) /\ got v' = got v;
  ac_push : forall v url, exists v' e, u_push U v u url = (v', inl e) /\ got v' = got v /\
    match e with None => True | Some err => errors_Is err ErrNotSupported = true end;
  ac_start : wc_readerfrom (u_caps U u) = true ->
    forall v, exists v' p, u_readfrom U v u None = (v', inl (Read p)) /\ p <> [] /\ zlen p <= max_slice /\ got v' = got v;
  ac_more : wc_readerfrom (u_caps U u) = true ->
    forall v n q, exists v' p, u_readfrom U v u (Some (ORet (RRead n q None))) = (v', inl (Read p)) /\
      p <> [] /\ zlen p <= max_slice /\ got v' = got v ++ take (Z.to_nat n) q;
  ac_end : wc_readerfrom (u_caps U u) = true ->
    forall v n q, exists v' m, u_readfrom U v u (Some (ORet (RRead n q (Some EOF)))) = (v', inr (inl (m, None))) /\
      0 <= m /\ got v' = got v ++ take (Z.to_nat n) q;
  ac_read : forall v r p, got (ev_read (u_env U) v r p).1 = got v;
  ac_readat : forall v r p off, got (ev_readat (u_env U) v r p off).1 = got v;
  ac_seek : forall v r off wh, got (ev_seek (u_env U) v r off wh).1 = got v;
  ac_close : forall v r, got (ev_close (u_env U) v r).1 = got v;
  ac_stat : forall v r, got (ev_stat (u_env U) v r).1 = got v
}.

(** No status has been sent on [k] if it is a Writer (a second one makes it panic),
    and [code] is one a Writer allows. *)
Definition ready {V} (s : state V) (k : wid) (code : Z) : Prop :=
  match v_objs (world s) !! k with Some (WWrap x) => ww_status x = 0 /\ 100 <= code <= 999 | _ => True end.
(** [k] is a Writer and the response has no body: HEAD or 204. *)
Definition bodiless {V} (s : state V) (k : wid) (code : Z) : bool :=
  match v_objs (world s) !! k with Some (WWrap x) => ww_isHEAD x || (code =? 204) | _ => false end.

(** Serving a Response whose body is [i] sends exactly the bytes [R], which are
    what reading it to the end would give.  [busy]: the source may keep its
    callers waiting for ever. *)
Definition delivers {V} (U : uenv V) (fuel : nat) (busy : Prop) (s : state V) (i : nat) (R : bytes) : Prop :=
  (forall R', reads U fuel s i R' -> R' = R) /\
  forall r x k by_ u h got s' o,
    s_rps s !! r = Some x -> rp_body x = Some i -> target s k = Some (by_, u) -> ready s k (rp_code x) ->
    accepting U u got ->
    (forall v, u_map U v u = h) -> is_Some (hview s (rp_hdrs x)) -> is_Some (view s h) ->
    texec U fuel (TDo (RServe r k)) s = (s', o) -> feasible (s_h s') ->
    (o = OSpin -> busy \/ (fuel < length R + 2)%nat) /\
    (o <> OSpin -> exists e, o = ORet (YErr e) /\
       ((forall v r, (ev_close (u_env U) v r).2 = None) -> e = None) /\
       got (v_v (world s')) = got (v_v (world s)) ++ (if bodiless s k (rp_code x) then [] else R)).

(** A program with handlers, from the start. *)
Definition runs_to {V} (U : uenv V) (fuel : nat) (s : state V) : Prop :=
  go_uenv U /\ exists v n maps arrs cs os,
    Forall (each_in (go_rcmd U)) cs /\ thistory U fuel (tinitial v n maps arrs) cs = (s, os) /\ feasible (s_h s).
(** The Body [j] is open and made of the Reader [r]: Unwrap gives [r]. *)
Definition holds {V} (U : uenv V) (fuel : nat) (s : state V) (j : nat) (r : rid) : Prop :=
  exists s', texec U fuel (TDo (RB (Call j Unwrap))) s = (s', ORet (YBody (RReader (Some r)))).
(** The Body [i] announces [D] bytes. *)
Definition announced {V} (U : uenv V) (fuel : nat) (s : state V) (i : nat) (D : Z) : Prop :=
  texec U fuel (TDo (RB (Call i BytesRemaining))) s = (s, ORet (YBody (RInt D))).

(** ReadFrom on a Writer for a HEAD request or with status 204 reads the Body [i] to
    its end, and reports the number of bytes read (an int64) and no error. *)
Definition drains {V} (U : uenv V) (fuel : nat) (busy : Prop) (s : state V) (i : nat) (R : bytes) : Prop :=
  forall k x s' o,
    v_objs (world s) !! k = Some (WWrap x) -> ww_isHEAD x = true \/ ww_status x = 204 -> ww_kind x = KFancy ->
    texec U fuel (TDo (RWriter k (WReadFrom i))) s = (s', o) -> feasible (s_h s') ->
    match o with
    | OSpin => busy \/ (fuel < length R + 1)%nat
    | OPanic e => ww_status x = 0 /\ (u_writeheader U (v_v (world s)) (ww_next x) 200).2 = Some e
    | ORet y => y = YCount (wrap64 (zlen R)) None /\ forall R', reads U fuel s' i R' -> R' = []
    end.

(** A Response with body [i] can be copied.  The copy has the same status, error
    and header map, and a body of its own that gives the same bytes [R].  If one of
    the two is served on a client that accepts everything, the body of the other
    still gives [R]. *)
Definition serves_well {V} (U : uenv V) (fuel : nat) (s : state V) (r : nat) (x : response) (s' : state V) : Prop :=
  exists k by_ u h got o,
    target s k = Some (by_, u) /\ ready s k (rp_code x) /\ accepting U u got /\
    (forall v, u_map U v u = h) /\ is_Some (hview s (rp_hdrs x)) /\ is_Some (view s h) /\
    texec U fuel (TDo (RServe r k)) s = (s', o) /\ feasible (s_h s') /\ o <> OSpin.
Definition twins {V} (U : uenv V) (fuel : nat) (busy : Prop) (s : state V) (i : nat) (R : bytes) : Prop :=
  forall r x s1 o, s_rps s !! r = Some x -> rp_body x = Some i -> texec U fuel (TDo (RCopy r)) s = (s1, o) -> feasible (s_h s1) ->
  exists j, let r2 := length (s_rps s) in let x2 := {| rp_code := rp_code x; rp_hdrs := rp_hdrs x; rp_body := Some j; rp_err := rp_err x |} in
    o = ORet (YNew (Some r2) None) /\ s_rps s1 = s_rps s ++ [x2] /\ j <> i /\ (forall m, view s1 m = view s m) /\
    delivers U fuel busy s1 i R /\ delivers U fuel busy s1 j R /\
    (forall s2, serves_well U fuel s1 r x s2 -> delivers U fuel busy s2 j R) /\
    (forall s2, serves_well U fuel s1 r2 x2 s2 -> delivers U fuel busy s2 i R).
