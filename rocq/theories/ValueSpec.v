(** * Vocabulary for Builders and Responses as values *)
From stdpp Require Import gmap.
From Verif Require Export BuilderSpec DeliverSpec.

(** What a program may do that has been handed [n0] header maps: everything, requests
    and Serve included, but for three things.  It changes the header of a Builder or a
    Response only by the Builder's methods, not by way of Headers().  Of the maps it has
    been handed, the ones of the ResponseWriters among them, it sets and deletes entries,
    but does not write into slices.  It uses the default page generator. *)
Definition mindful (n0 : nat) (c : rcmd) : Prop :=
  match c with
  | RMap (HSet m _ _ _) | RMap (HDelete m _) => (m < n0)%nat
  | RMap _ | RBuilder _ (WithPageGenerator _) => False
  | _ => True
  end.
(** The headers of the ResponseWriters are among these maps. *)
Definition clients_among {V} (U : uenv V) (n0 : nat) : Prop := forall v u, (u_map U v u < n0)%nat.
(** Such a program has run to [s], and all its calls have returned. *)
Definition mindfully {V} (U : uenv V) (fuel n0 : nat) (s : state V) : Prop :=
  exists v n maps arrs cs os, length maps = n0 /\ sound_maps arrs maps /\ Forall (each_in (mindful n0)) cs /\
    thistory U fuel (tinitial v n maps arrs) cs = (s, os) /\ OSpin ∉ os.

(** Calls that are not for Builder [b] to change; to copy it is among them. *)
Definition others (b : nat) (c : rcmd) : Prop :=
  match c with RBuilder b' _ | RHeaders b' | RBuild b' => b' <> b | _ => True end.

(** ** Values *)
Record value := { v_code : Z; v_header : header; v_body : option nat; v_err : option error }.
Definition builder_is {V} (s : state V) (b : nat) (w : value) : Prop :=
  exists x, s_bds s !! b = Some x /\ hview s (bd_hdrs x) = Some (v_header w) /\ bd_code x = v_code w /\ bd_body x = v_body w /\ bd_err x = v_err w.
Definition response_is {V} (s : state V) (r : nat) (w : value) : Prop :=
  exists y, s_rps s !! r = Some y /\ hview s (rp_hdrs y) = Some (v_header w) /\ rp_code y = v_code w /\ rp_body y = v_body w /\ rp_err y = v_err w.

(** The header helpers, WithStatus, WithBody and WithError. *)
Definition simple (f : bdop) : Prop :=
  match f with WithStatus _ | WithBody _ | WithError _ => True | _ => header_helper f end.
(** What they make of the value of the Builder.  A call that raises is recovered from. *)
Definition called {V} (U : uenv V) (w : value) (f : bdop) : value :=
  match f with
  | WithStatus c => if (200 <=? c) && (c <=? 999) then {| v_code := c; v_header := v_header w; v_body := v_body w; v_err := v_err w |} else w
  | WithBody (Some i) => {| v_code := v_code w; v_header := v_header w; v_body := Some i; v_err := v_err w |}
  | WithBody None => w
  | WithError e => {| v_code := v_code w; v_header := v_header w; v_body := v_body w; v_err := e |}
  | _ => match header_after U f (v_header w) with
         | Some X => {| v_code := v_code w; v_header := X; v_body := v_body w; v_err := v_err w |}
         | None => w
         end
  end.
(** The call of a method of Builder [b], if it is one. *)
Definition call_on (b : nat) (c : tcmd) : option bdop :=
  match c with TDo (RBuilder b' f) => if (b' =? b)%nat then Some f else None | _ => None end.
(** A program that uses [b] only by these methods, and may do anything else in between. *)
Definition uses_simply (b : nat) (c : tcmd) : Prop :=
  each_in (others b) c \/ exists f, c = TDo (RBuilder b f) /\ simple f.

(** The value of the Response that Build makes of a Builder's, if the body has [n] bytes
    left (-1: it does not know). *)
Definition or_else (X : header) (key value : string) : header := match X !! key with Some _ => X | None => <[key := [value]]> X end.
Definition built (n : Z) (w : value) : value :=
  let X := or_else (v_header w) "Content-Type" "application/octet-stream" in
  {| v_code := if v_code w =? 0 then 200 else v_code w;
     v_header := if 0 <=? n then or_else X "Content-Length" (itoa n) else X;
     v_body := v_body w; v_err := v_err w |}.
Definition new_value : value := {| v_code := 0; v_header := ∅; v_body := None; v_err := None |}.

(** ** All methods

    What a method makes of the value of its Builder.  [Y]: what is in the header that
    WithHeaders is given, [i]: the next new Body. *)
Definition method {V} (U : uenv V) (Y : option header) (i : nat) (w : value) (f : bdop) : value :=
  match f with
  | WithHeaders _ =>
      match Y with Some Y => {| v_code := v_code w; v_header := Y; v_body := v_body w; v_err := v_err w |} | None => w end
  | RedirectPage c l =>
      let text := page_with (list_ascii_of_string (EscapeString (TrimSpace l))) in
      if (300 <=? c) && (c <=? 399) && negb (String.eqb (TrimSpace l) "")
      then {| v_code := c; v_body := Some i; v_err := None;
              v_header := {[ "Cache-Control" := ["max-age=86400, must-revalidate"]; "Content-Length" := [itoa (zlen text)];
                             "Content-Type" := ["text/html; charset=utf-8"]; "Location" := [TrimSpace l] ]} |}
      else w
  | ErrorPage c (Some e) =>
      let text := list_ascii_of_string (itoa c) ++ [" "%char] ++ list_ascii_of_string (u_statustext U c) ++ ["013"%char; "010"%char] in
      if (200 <=? c) && (c <=? 999)
      then {| v_code := c; v_body := Some i; v_err := Some e;
              v_header := {[ "Cache-Control" := ["no-cache"]; "Content-Length" := [itoa (zlen text)]; "Content-Type" := ["text/plain; charset=utf-8"] ]} |}
      else w
  | ErrorPage _ None => w
  | _ =>
      match encoding_of f with
      | Some (Some (inl _), ctype, _) =>
          {| v_code := v_code w; v_header := <["Content-Type" := [ctype]]> (v_header w); v_body := Some i; v_err := v_err w |}
      | Some _ => w
      | None => called U w f
      end
  end.
(** The value of Builder [b] after a command. *)
Definition next {V} (U : uenv V) (s : state V) (b : nat) (w : value) (c : rcmd) : value :=
  match c with
  | RBuilder b' f =>
      if (b' =? b)%nat then method U (match f with WithHeaders h => hview s h | _ => None end) (length (h_b (s_h s))) w f else w
  | RBuild b' => if (b' =? b)%nat then match v_body w with Some _ => new_value | None => w end else w
  | _ => w
  end.
(** After a Handler, a command or a request, and a program. *)
Fixpoint next_handler {V} (U : uenv V) (fuel : nat) (b : nat) (f : handler) (s : state V) (w : value) : value :=
  match f with
  | HReturn _ | HPanic _ => w
  | HDo c k => next_handler U fuel b (k (rdo U fuel c s).2) (rdo U fuel c s).1 (next U s b w c)
  end.
Definition next_step {V} (U : uenv V) (fuel : nat) (b : nat) (c : tcmd) (s : state V) (w : value) : value :=
  match c with
  | TDo c => next U s b w c
  | TServe f k isHEAD => match NewWriter U k isHEAD s with (s, ORet _) => next_handler U fuel b f s w | _ => w end
  end.
Fixpoint evolves {V} (U : uenv V) (fuel : nat) (b : nat) (cs : list tcmd) (s : state V) (w : value) : value :=
  match cs with [] => w | c :: cs => evolves U fuel b cs (texec U fuel c s).1 (next_step U fuel b c s w) end.

(** A copy: the same, with a copy of the body. *)
Definition copy_of (w w2 : value) (copied : nat -> nat -> Prop) : Prop :=
  v_code w2 = v_code w /\ v_header w2 = v_header w /\ v_err w2 = v_err w /\
  match v_body w, v_body w2 with None, None => True | Some i, Some j => copied i j | _, _ => False end.
