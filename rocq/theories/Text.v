(** * Text functions of the Go standard library used by the response package

    Go strings are byte strings, as is Coq's [string]. *)
From Coq Require Import DecimalString Decimal.
From Verif Require Export GoBase.

(** strconv.Itoa, strconv.FormatInt(_, 10) *)
Definition itoa (z : Z) : string := NilZero.string_of_int (Z.to_int z).

Definition code (c : ascii) : Z := Z.of_nat (nat_of_ascii c).
Definition between (a b : ascii) (c : ascii) : bool := (code a <=? code c) && (code c <=? code b).
Definition is_upper : ascii -> bool := between "A" "Z".
Definition is_lower : ascii -> bool := between "a" "z".
Definition is_digit : ascii -> bool := between "0" "9".
Definition one_of (s : string) (c : ascii) : bool := existsb (Ascii.eqb c) (list_ascii_of_string s).

(** textproto.validHeaderFieldByte: the token characters of RFC 7230 *)
Definition is_token (c : ascii) : bool :=
  is_upper c || is_lower c || is_digit c || one_of "!#$%&'*+-.^_`|~" c.
Definition to_upper (c : ascii) : ascii := if is_lower c then ascii_of_nat (nat_of_ascii c - 32) else c.
Definition to_lower (c : ascii) : ascii := if is_upper c then ascii_of_nat (nat_of_ascii c + 32) else c.

(** http.CanonicalHeaderKey = textproto.CanonicalMIMEHeaderKey: letters after a
    hyphen and the first one are upper case, all others lower case; a name with
    any other character than those of a token is left alone. *)
Fixpoint canonical_from (upper : bool) (s : string) : string :=
  match s with
  | EmptyString => EmptyString
  | String c s =>
      let c' := if upper then to_upper c else to_lower c in
      String c' (canonical_from (Ascii.eqb c' "-") s)
  end.
Definition CanonicalHeaderKey (s : string) : string :=
  if forallb is_token (list_ascii_of_string s) then canonical_from true s else s.

(** html.EscapeString *)
Definition escape_char (c : ascii) : string :=
  if Ascii.eqb c "&" then "&amp;"
  else if Ascii.eqb c "'" then "&#39;"
  else if Ascii.eqb c "<" then "&lt;"
  else if Ascii.eqb c ">" then "&gt;"
  else if Ascii.eqb c """" then "&#34;"
  else String c EmptyString.
Fixpoint EscapeString (s : string) : string :=
  match s with EmptyString => EmptyString | String c s => escape_char c +:+ EscapeString s end.

(** strings.TrimSpace: the UTF-8 encodings of the code points which
    unicode.IsSpace accepts (U+0009-D, 20, 85, A0, 1680, 2000-A, 2028, 2029, 202F,
    205F, 3000) are removed from both ends. *)
Definition utf8 (l : list nat) : bytes := map ascii_of_nat l.
Definition space_codes : list bytes :=
  map utf8 ([[9]; [10]; [11]; [12]; [13]; [32]; [194; 133]; [194; 160]; [225; 154; 128]] ++
    map (fun n => [226; 128; 128 + n]) (seq 0 11) ++
    [[226; 128; 168]; [226; 128; 169]; [226; 128; 175]; [226; 129; 159]; [227; 128; 128]])%nat.
Fixpoint strip_prefix (p s : bytes) : option bytes :=
  match p, s with
  | [], _ => Some s
  | a :: p, b :: s => if Ascii.eqb a b then strip_prefix p s else None
  | _ :: _, [] => None
  end.
Fixpoint strip_first (codes : list bytes) (s : bytes) : option bytes :=
  match codes with
  | [] => None
  | c :: codes => match strip_prefix c s with Some s => Some s | None => strip_first codes s end
  end.
Fixpoint strip_all (fuel : nat) (codes : list bytes) (s : bytes) : bytes :=
  match fuel with
  | O => s
  | S fuel => match strip_first codes s with Some s => strip_all fuel codes s | None => s end
  end.
Definition trim_left (s : bytes) : bytes := strip_all (length s) space_codes s.
Definition trim_right (s : bytes) : bytes :=
  rev (strip_all (length s) (map (@rev ascii) space_codes) (rev s)).
Definition TrimSpace (s : string) : string :=
  string_of_list_ascii (trim_right (trim_left (list_ascii_of_string s))).

(** errors.Is(err, target) for a target without an Is method *)
Fixpoint errors_Is (e target : error) : bool :=
  bool_decide (e = target) ||
  match e with
  | StatFailed e | SeekEndFailed e | SeekStartFailed e | ExternalWrap _ e => errors_Is e target
  | _ => false
  end.

(** encoding/base64, StdEncoding *)
Definition b64_char (n : Z) : ascii :=
  let n := Z.to_nat n in
  ascii_of_nat (if n <? 26 then 65 + n else if n <? 52 then 71 + n else if n <? 62 then n - 4
                else if n =? 62 then 43 else 47)%nat.
Fixpoint b64_encode (s : bytes) : string :=
  match s with
  | [] => EmptyString
  | [a] => let n := code a * 65536 in
      String (b64_char (n / 262144)) (String (b64_char (n / 4096 mod 64)) "==")
  | [a; b] => let n := code a * 65536 + code b * 256 in
      String (b64_char (n / 262144)) (String (b64_char (n / 4096 mod 64)) (String (b64_char (n / 64 mod 64)) "="))
  | a :: b :: c :: s => let n := code a * 65536 + code b * 256 + code c in
      String (b64_char (n / 262144)) (String (b64_char (n / 4096 mod 64))
        (String (b64_char (n / 64 mod 64)) (String (b64_char (n mod 64)) (b64_encode s))))
  end.
