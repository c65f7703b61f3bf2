(** * Vocabulary for Builders and Responses *)
From stdpp Require Import gmap.
From Verif Require Export RespSpec JsonSpec.

(** ** The contents of header maps *)
Notation header := (gmap string (list string)).
(** The header a program sees in map [m]. *)
Definition view {V} (s : state V) (m : mid) : option header :=
  match s_maps s !! m with Some x => Some (contents_of (s_arrs s) <$> x) | None => None end.
(** [None]: the nil map, which is empty. *)
Definition hview {V} (s : state V) (m : option mid) : option header :=
  match m with Some m => view s m | None => Some ∅ end.

(** The array behind an entry, if any. *)
Definition array_of {V} (s : state V) (m : mid) (key : string) : option nat :=
  match s_maps s !! m with Some x => match x !! key with Some v => sl_arr v | None => None end | None => None end.
(** The entry [key] of map [m] shares its array with no other entry of map [m']. *)
Definition unshared {V} (s : state V) (m : mid) (key : string) (m' : mid) : Prop :=
  forall key' a, (m', key') <> (m, key) -> array_of s m key = Some a -> array_of s m' key' <> Some a.

(** ** Commands of a program that keeps to some objects

    [bs]: Builders, [ms]: header maps it may change.  PageGenerators made outside
    may return any map; [returns_only]: one that returns only some. *)
Definition returns_only {V} (U : uenv V) (ms : nat -> Prop) (gen : option nat) : Prop :=
  forall g v v' m i, gen = Some g ->
    (forall c l, u_redirect U v g c l = (v', inl (Some m, i)) -> ms m) /\ (forall c e, u_error U v g c e = (v', inl (Some m, i)) -> ms m).
Definition keeps_to {V} (U : uenv V) (bs ms : nat -> Prop) (c : rcmd) : Prop :=
  match c with
  | RB _ | RJSON _ _ | RProto _ | RNewMap | RNewBuilder | RCopy _ | RHeadersOf _ | RStatusOf _ | RNewWriter _ _ | RWriter _ _ => True
  | RMap (HSet m _ _ _) | RMap (HElem m _ _ _) | RMap (HAppend m _ _) | RMap (HCut m _ _ _) | RMap (HDelete m _) => ms m
  | RMap (HShare m _ m' _) => ms m /\ ms m'
  | RBuilder b (WithPageGenerator gen) => bs b /\ returns_only U ms gen
  | RBuilder b _ | RHeaders b | RCopyBuilder b | RBuild b => bs b
  | RServe _ _ => False
  end.

(** The header map shares no array with another header map. *)
Definition apart {V} (s : state V) (m : option mid) : Prop :=
  forall m0 m' key key' a, m = Some m0 -> m' <> m0 -> array_of s m0 key = Some a -> array_of s m' key' <> Some a.
(** Builder [b] has nothing to do with header map [m]. *)
Definition leaves_alone {V} (U : uenv V) (s : state V) (m : option mid) (b : nat) : Prop :=
  forall x, s_bds s !! b = Some x -> returns_only U (fun m' => m <> Some m') (bd_gen x) /\ (m = None \/ bd_hdrs x <> m).
(** Commands of a program that does not itself make two entries of header maps
    share an array, and uses the default page generator.  Serve is left out: it
    makes the entries of the ResponseWriter's header share those of the Response. *)
Definition tidy (c : rcmd) : Prop :=
  match c with RMap (HShare _ _ _ _) | RBuilder _ (WithPageGenerator _) | RServe _ _ => False | _ => True end.
(** No two entries share an array. *)
Definition distinct {V} (s : state V) : Prop :=
  forall m key m' key' a, array_of s m key = Some a -> array_of s m' key' = Some a -> m = m' /\ key = key'.

(** ** What a call on a Builder changes

    From [s] to [s'], Builder [b], which was [x], became [x'], its header is now
    [X], and nothing else changed: not the other Builders, Responses, existing
    Bodies and Writers, and no other header map.  [new] lists the kinds of the
    Bodies made. *)
Definition changes {V} (s s' : state V) (b : nat) (x x' : builder) (X : header) (new : list bobj) : Prop :=
  s_bds s' = <[b := x']> (s_bds s) /\ hview s' (bd_hdrs x') = Some X /\
  s_rps s' = s_rps s /\ s_met s' = s_met s /\
  s_h s' = {| h_b := h_b (s_h s) ++ new; h_c := h_c (s_h s); h_w := h_w (s_h s); h_log := h_log (s_h s) |} /\
  forall m Y, view s m = Some Y -> bd_hdrs x <> Some m -> view s' m = Some Y.

(** ** What the header helpers are documented to do

    The header after the call, if it returns; None: it raises. *)
Definition quoted (tag : string) : string := """" +:+ tag +:+ """".
Definition header_after {V} (U : uenv V) (f : bdop) (X : header) : option header :=
  match f with
  | WithHeader "" _ _ | WithoutHeader "" => None
  | WithHeader name value false => Some (<[CanonicalHeaderKey name := [value]]> X)
  | WithHeader name value true =>
      Some (<[CanonicalHeaderKey name := default [] (X !! CanonicalHeaderKey name) ++ [value]]> X)
  | WithoutHeader name => Some (delete (CanonicalHeaderKey name) X)
  | WithContentType str =>
      match u_mime U str with Some t => Some (<["Content-Type" := [t]]> X) | None => None end
  | WithContentLanguage str => Some (<["Content-Language" := [TrimSpace str]]> X)
  | WithContentEncoding str => Some (<["Content-Encoding" := [TrimSpace str]]> X)
  | WithETag tag true => Some (<["Etag" := [quoted tag]]> X)
  | WithETag tag false => Some (<["Etag" := ["W/" +:+ quoted tag]]> X)
  | WithDigest "" _ | WithDigest _ [] => None
  | WithDigest algo sum => Some (<["Digest" := default [] (X !! "Digest") ++ [algo +:+ "=" +:+ b64_encode sum]]> X)
  | _ => Some X
  end.
Definition header_helper (f : bdop) : Prop :=
  match f with
  | WithHeader _ _ _ | WithoutHeader _ | WithContentType _ | WithContentLanguage _ | WithContentEncoding _ | WithETag _ _ | WithDigest _ _ => True
  | _ => False
  end.
(** The entry appended to, if any. *)
Definition appends_to (f : bdop) : option string :=
  match f with
  | WithHeader name _ true => Some (CanonicalHeaderKey name)
  | WithDigest _ _ => Some "Digest"
  | _ => None
  end.
(** Two header maps' entries share arrays only if a program made them so; here:
    the entry that is appended to shares its array with no other entry. *)
Definition safe_append {V} (s : state V) (x : builder) (f : bdop) : Prop :=
  forall key m m', appends_to f = Some key -> bd_hdrs x = Some m -> unshared s m key m'.

(** Helpers that encode a value: what the encoder produced, the content type, and
    whether line ends are changed.  WithJSON loses what the encoder produced. *)
Definition encoding_of (f : bdop) : option (option (bytes + error) * string * (bytes -> bytes)) :=
  match f with
  | WithJSON src => Some (Some src, "application/json", fun _ => [])
  | WithPrettyJSON src => Some (Some src, "application/json", crlf_of)
  | WithProto raw => Some (raw, "application/vnd.google.protobuf", fun d => d)
  | WithProtoText raw => Some (raw, "text/plain; charset=utf-8", fun d => d)
  | _ => None
  end.

(** The Builder after one of the remaining setters. *)
Definition set_field (f : bdop) (x : builder) : option builder :=
  match f with
  | WithPageGenerator (Some g) => Some {| bd_gen := Some g; bd_code := bd_code x; bd_hdrs := bd_hdrs x; bd_body := bd_body x; bd_err := bd_err x |}
  | WithStatus c => if (200 <=? c) && (c <=? 999)
      then Some {| bd_gen := bd_gen x; bd_code := c; bd_hdrs := bd_hdrs x; bd_body := bd_body x; bd_err := bd_err x |} else None
  | WithBody (Some i) => Some {| bd_gen := bd_gen x; bd_code := bd_code x; bd_hdrs := bd_hdrs x; bd_body := Some i; bd_err := bd_err x |}
  | WithError e => Some {| bd_gen := bd_gen x; bd_code := bd_code x; bd_hdrs := bd_hdrs x; bd_body := bd_body x; bd_err := e |}
  | _ => None
  end.
Definition setter (f : bdop) : Prop :=
  match f with WithPageGenerator _ | WithStatus _ | WithBody _ | WithError _ => True | _ => False end.

(** ** Text *)
(** Names of the same header differ only in the case of ASCII letters. *)
Definition lower_case (s : string) : list ascii := map to_lower (list_ascii_of_string s).
Definition token_name (s : string) : Prop := Forall (fun c => is_token c = true) (list_ascii_of_string s).
(** Decoding of base64. *)
Definition b64_alphabet : bytes := list_ascii_of_string "ABCDEFGHIJKLMNOPQRSTUVWXYZabcdefghijklmnopqrstuvwxyz0123456789+/".
Fixpoint index_of (c : ascii) (l : bytes) : Z := match l with [] => 0 | d :: l => if Ascii.eqb c d then 0 else 1 + index_of c l end.
Definition byte_of (z : Z) : ascii := ascii_of_nat (Z.to_nat (z mod 256)).
Fixpoint b64_decode (s : list ascii) : bytes :=
  match s with
  | a :: b :: c :: d :: s =>
      let n := index_of a b64_alphabet * 262144 + index_of b b64_alphabet * 4096 +
               (if Ascii.eqb c "=" then 0 else index_of c b64_alphabet * 64) + (if Ascii.eqb d "=" then 0 else index_of d b64_alphabet) in
      (byte_of (n / 65536) :: (if Ascii.eqb c "=" then [] else [byte_of (n / 256)]) ++ (if Ascii.eqb d "=" then [] else [byte_of n])) ++ b64_decode s
  | _ => []
  end.

(** Decoding of the entities that html.EscapeString makes. *)
Fixpoint unescape (s : list ascii) : list ascii :=
  match s with
  | [] => []
  | ("&" :: "a" :: "m" :: "p" :: ";" :: s)%char => "&"%char :: unescape s
  | ("&" :: "#" :: "3" :: "9" :: ";" :: s)%char => "'"%char :: unescape s
  | ("&" :: "l" :: "t" :: ";" :: s)%char => "<"%char :: unescape s
  | ("&" :: "g" :: "t" :: ";" :: s)%char => ">"%char :: unescape s
  | ("&" :: "#" :: "3" :: "4" :: ";" :: s)%char => """"%char :: unescape s
  | c :: s => c :: unescape s
  end.
(** Cannot end an attribute or open a tag or an entity of its own. *)
Definition harmless (s : list ascii) : Prop :=
  (forall c, c ∈ s -> c <> "<"%char /\ c <> ">"%char /\ c <> """"%char /\ c <> "'"%char) /\
  (forall a b, s = a ++ "&"%char :: b ->
     exists e c, b = list_ascii_of_string e ++ c /\ e ∈ ["amp;"; "#39;"; "lt;"; "gt;"; "#34;"]).
(** The redirect page with the text [t] where the location goes. *)
Definition page_with (t : list ascii) : list ascii :=
  list_ascii_of_string "<!DOCTYPE html>" ++ ["013"%char; "010"%char] ++
  list_ascii_of_string "<p>Redirecting to <a href=""" ++ t ++ list_ascii_of_string """>" ++ t ++
  list_ascii_of_string "</a>...</p>" ++ ["013"%char; "010"%char].

(** White space of Unicode, and UTF-8 for code points below 65536. *)
Definition white_space : list Z :=
  [9; 10; 11; 12; 13; 32; 133; 160; 5760; 8192; 8193; 8194; 8195; 8196; 8197; 8198; 8199; 8200; 8201; 8202; 8232; 8233; 8239; 8287; 12288].
Definition utf8_of (n : Z) : bytes :=
  map (fun z => ascii_of_nat (Z.to_nat z))
    (if n <? 128 then [n] else if n <? 2048 then [192 + n / 64; 128 + n mod 64]
     else [224 + n / 4096; 128 + n / 64 mod 64; 128 + n mod 64]).
Definition spaces (l : list Z) : bytes := concat (map utf8_of l).
