(** * Go values used by the model

    Fixed-width integers, slices, errors, panics.  Nothing in this file is
    specific to morehttp. *)
From stdpp Require Export prelude strings list.
From Coq Require Export ZArith Lia Ascii.
Global Open Scope Z_scope.

(** A Go [byte]; a Go [string] is Coq's [string], i.e. a list of the same
    [ascii] octets. *)
Definition byte := ascii.
Definition bytes := list byte.
Definition zero_byte : byte := Ascii.zero.

Definition zlen {A} (l : list A) : Z := Z.of_nat (length l).

(** ** Fixed-width integers ([int] is 64 bits wide on the platforms considered) *)
Definition max_i64 : Z := 2 ^ 63 - 1.
Definition min_i64 : Z := - 2 ^ 63.
Definition in_i64 (z : Z) : Prop := min_i64 <= z <= max_i64.
Definition wrap64 (z : Z) : Z := (z + 2 ^ 63) mod 2 ^ 64 - 2 ^ 63.
Definition wrap32 (z : Z) : Z := (z + 2 ^ 31) mod 2 ^ 32 - 2 ^ 31.
Definition u64 (z : Z) : Z := z mod 2 ^ 64.

(** ** Errors

    Errors are values.  [External n] is an arbitrary error made outside the
    modelled code; [ExternalWrap n e] one that wraps [e] (errors.Unwrap). *)
Inductive error :=
| EOF                                  (* io.EOF *)
| ErrClosed                            (* fs.ErrClosed *)
| UnknownWhence (whence : Z)           (* body/errors.go:7-9 *)
| NegativeStartOffset (offset : Z)     (* body/errors.go:21-23 *)
| NegativeComputedOffset (offset : Z)  (* body/errors.go:35-37 *)
| ReadAtNegative (offset : Z)          (* fmt.Errorf in bytes.go:121, seeker.go:205, readerat.go:205 *)
| StatFailed (e : error)               (* fmt.Errorf("... via Stat: %w"), body.go:305 *)
| SeekEndFailed (e : error)            (* fmt.Errorf("... via Seek: %w"), body.go:316 *)
| SeekStartFailed (e : error)          (* fmt.Errorf("failed to rewind ...: %w"), body.go:322 *)
| ErrNotSupported                      (* http.ErrNotSupported *)
| ErrShortWrite                        (* io.ErrShortWrite *)
| ErrInvalidWrite                      (* io.errInvalidWrite *)
| External (n : nat)
| ExternalWrap (n : nat) (e : error).

Global Instance error_eq_dec : EqDecision error.
Proof. solve_decision. Defined.

(** ** Panics *)
Inductive panic :=
| PAssert            (* a failed assert.Assert/Assertf/NotNil/Raisef *)
| PRange             (* slice bounds out of range *)
| PNil               (* nil pointer/interface dereference, nil map write *)
| PError (e : error) (* panic(err) *)
| PUser (n : nat).   (* panic with a value that is not an error *)

(** ** Slices *)

(** [s[i:j]].  Go allows [j] up to the capacity; all uses in the modelled code
    stay within the length, so anything beyond the length is treated as a
    panic. *)
Definition slice {A} (l : list A) (i j : Z) : option (list A) :=
  if (0 <=? i) && (i <=? j) && (j <=? zlen l)
  then Some (take (Z.to_nat (j - i)) (drop (Z.to_nat i) l))
  else None.

(** Contents of [dst] after [copy(dst, src)]. *)
Definition go_copy {A} (dst src : list A) : list A :=
  take (length dst) src ++ drop (length src) dst.

(** Contents of [dst] after [copy(dst[i:j], src)]; [None] if [dst[i:j]] panics. *)
Definition copy_into {A} (dst : list A) (i j : Z) (src : list A) : option (list A) :=
  match slice dst i j with
  | Some d => Some (take (Z.to_nat i) dst ++ go_copy d src ++ drop (Z.to_nat j) dst)
  | None => None
  end.

(** ** io whence constants *)
Definition SeekStart : Z := 0.
Definition SeekCurrent : Z := 1.
Definition SeekEnd : Z := 2.
