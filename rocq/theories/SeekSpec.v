(** * Specification of Seek and WriteTo *)
From stdpp Require Import gmap.
From Verif Require Export Spec.

(** An open Body that can seek. *)
Definition open_seekable (b : bobj) : bool :=
  match b with
  | BEmpty x => negb (em_closed x)
  | BBytes x => negb (by_closed x)
  | BSeeker x => negb (sb_closed x)
  | BReaderAt x => negb (rb_closed x)
  | BClosed | BBuffered _ => false
  end.
(** The same Body at position [n] with no EOF or error pending. *)
Definition moved_to (b : bobj) (n : Z) : bobj :=
  match b with
  | BEmpty x => BEmpty {| em_eof := false; em_closed := em_closed x |}
  | BBytes x => BBytes {| by_data := by_data x; by_offset := n; by_eof := false; by_closed := by_closed x |}
  | BSeeker x => BSeeker {| sb_common := sb_common x; sb_err := None; sb_offset := n; sb_closed := sb_closed x |}
  | BReaderAt x => BReaderAt {| rb_common := rb_common x; rb_err := None; rb_offset := n; rb_closed := rb_closed x |}
  | _ => b
  end.
Definition with_body {W} (h : heap W) (i : nat) (b : bobj) : heap W :=
  {| h_b := <[i := b]> (h_b h); h_c := h_c h; h_w := h_w h; h_log := h_log h |}.

(** Seek fails: whence unknown, start offset negative, computed position negative,
    or (the case the code confuses with the last one) beyond the int64 range. *)
Definition seek_target (len pos off whence : Z) : Z := (if whence =? 1 then pos else if whence =? 2 then len else 0) + off.
Definition seek_fails (len pos off whence : Z) : Prop :=
  whence < 0 \/ 2 < whence \/ whence = 0 /\ off < 0 \/ seek_target len pos off whence < 0.
Definition seek_overflows (len pos off whence : Z) : Prop := max_i64 < seek_target len pos off whence.

(** The call does not tell Empty from a Body of no bytes. *)
Definition untelling (c : cmd) : Prop :=
  match c with
  | Call _ (WriteTo _) => False
  | Call _ (ReadAt _ off) => 0 <= off
  | _ => True
  end.
(** A Body of no bytes. *)
Definition none_family : family := {| fam_flavour := FBytes; fam_data := [] |}.
