(** * C38: Redirect page cannot be broken out of *)
From stdpp Require Import gmap.
From Verif Require Import BuilderSpec WitnessResp.
From Verif Require BuilderMain TextFacts.

(** The page, its headers and its length, whatever the Builder held before. *)
Theorem C38_redirect_page : forall (V : Type) (U : uenv V) (fuel : nat), forall s b x c location,
  treaches U fuel s -> s_bds s !! b = Some x -> bd_gen x = None -> 300 <= c <= 399 -> TrimSpace location <> "" ->
  let text := page_with (list_ascii_of_string (EscapeString (TrimSpace location))) in
  zlen text <= max_slice ->
  exists s' m i o, texec U fuel (TDo (RBuilder b (RedirectPage c location))) s = (s', ORet YUnit) /\
    changes s s' b x {| bd_gen := None; bd_code := c; bd_hdrs := Some m; bd_body := Some i; bd_err := None |}
      {[ "Cache-Control" := ["max-age=86400, must-revalidate"]; "Content-Length" := [itoa (zlen text)];
         "Content-Type" := ["text/html; charset=utf-8"]; "Location" := [TrimSpace location] ]} [o] /\
    serves U fuel s s' i text.
Proof. exact @BuilderMain.redirect_page. Qed.
Print Assumptions C38_redirect_page.

(** No page without a location. *)
Theorem C38_needs_location : forall (V : Type) (U : uenv V) (fuel : nat), forall s b c location,
  TrimSpace location = "" -> texec U fuel (TDo (RBuilder b (RedirectPage c location))) s = (s, OPanic PAssert).
Proof. exact @BuilderMain.redirect_needs_location. Qed.
Print Assumptions C38_needs_location.

(** Escaped text has no special characters, and no ampersand that does not start
    one of the entities of EscapeString. *)
Theorem C38_harmless : forall s, harmless (list_ascii_of_string (EscapeString s)).
Proof. exact TextFacts.escape_harmless. Qed.
Print Assumptions C38_harmless.

(** Nothing is lost by escaping. *)
Theorem C38_escape : forall s, unescape (list_ascii_of_string (EscapeString s)) = list_ascii_of_string s.
Proof. exact TextFacts.unescape_escape. Qed.
Print Assumptions C38_escape.

(** Trimming removes white space at both ends, all of it, and nothing else. *)
Theorem C38_trim : forall s, exists l r,
  Forall (fun z => z ∈ white_space) l /\ Forall (fun z => z ∈ white_space) r /\
  list_ascii_of_string s = spaces l ++ list_ascii_of_string (TrimSpace s) ++ spaces r /\
  forall z, z ∈ white_space -> forall t, list_ascii_of_string (TrimSpace s) <> utf8_of z ++ t /\ list_ascii_of_string (TrimSpace s) <> t ++ utf8_of z.
Proof. exact TextFacts.trim_space. Qed.
Print Assumptions C38_trim.

Definition prog38 : list tcmd := map TDo
  [RNewBuilder; RBuilder 0 (WithHeader "x-y" "1" false); RBuilder 0 (RedirectPage 308 " /a?b=<c>&""d ")].
Example C38_example :
  let s := after (web_ok []) 9 (start [] 1) [TDo RNewBuilder; TDo (RBuilder 0 (WithHeader "x-y" "1" false))] in
  treaches (web_ok []) 9 s /\ option_map bd_gen (s_bds s !! 0%nat) = Some None /\ TrimSpace " /a?b=<c>&""d " = "/a?b=<c>&""d" /\
  EscapeString (TrimSpace " /a?b=<c>&""d ") = "/a?b=&lt;c&gt;&amp;&#34;d" /\
  zlen (page_with (list_ascii_of_string (EscapeString (TrimSpace " /a?b=<c>&""d ")))) = 109 /\
  match s_bds (after (web_ok []) 9 (start [] 1) prog38) !! 0%nat with
  | Some x => bool_decide (hview (after (web_ok []) 9 (start [] 1) prog38) (bd_hdrs x) = Some
      {[ "Cache-Control" := ["max-age=86400, must-revalidate"]; "Content-Length" := ["109"];
         "Content-Type" := ["text/html; charset=utf-8"]; "Location" := ["/a?b=<c>&""d"] ]})
  | None => false
  end = true.
Proof. split; [apply after_reaches|]. by vm_compute. Qed.
