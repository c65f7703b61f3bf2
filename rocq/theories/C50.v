(** * C50: MockReader accepts exactly its script *)
From Verif Require Import MockSpec.
From Verif Require MockProofs.

(** Call number [i] gets the answer of line number [i] if that line is about this
    call, and a panic that names the line otherwise; beyond the end of the script
    the panic names the end. *)
Theorem C50_each_call : forall (F : Type) (ls : list (line F)) xs cs i c,
  Forall2 (fun l x => written l = Some x) ls xs -> cs !! i = Some c ->
  exists o, mrun (Some (newMock xs)) cs !! i = Some o /\
    match ls !! i, xs !! i with
    | Some l, Some x => answers l c o \/ complains i x o /\ forall o', ~ answers l c o'
    | _, _ => complains (length ls) zeroExpectation o
    end.
Proof. exact @MockProofs.each_call. Qed.
Print Assumptions C50_each_call.

(** The calls run without a panic if and only if they match the script in order. *)
Theorem C50_accepts : forall (F : Type) (ls : list (line F)) xs cs,
  Forall2 (fun l x => written l = Some x) ls xs ->
  Forall (fun o => ~ is_panic o) (mrun (Some (newMock xs)) cs) <->
  exists os, Forall2 (fun lc o => answers lc.1 lc.2 o) (zip ls cs) os /\ (length cs <= length ls)%nat.
Proof. exact @MockProofs.accepts. Qed.
Print Assumptions C50_accepts.

(** Scripts that report more bytes than they have, or less than none, cannot be written. *)
Theorem C50_read_line : forall (F : Type) p n err, (exists x, @expectRead F p n err = Some x) <-> 0 <= n <= zlen p.
Proof. exact @MockProofs.constructor_checks. Qed.
Print Assumptions C50_read_line.
Theorem C50_readat_line : forall (F : Type) p off n err, (exists x, @expectReadAt F p off n err = Some x) <-> 0 <= n <= zlen p.
Proof. exact @MockProofs.constructor_checks_at. Qed.
Print Assumptions C50_readat_line.

(** A nil *MockReader ignores Mark and has an empty script otherwise. *)
Theorem C50_nil : forall (F : Type) cs i c, cs !! i = Some c ->
  exists o, @mrun F None cs !! i = Some o /\ match c with MMark _ => o = MUnit | _ => complains 0 zeroExpectation o end.
Proof. exact @MockProofs.nil_mock. Qed.
Print Assumptions C50_nil.

(** ** Examples *)
Definition bytes_of (s : string) : bytes := String.list_ascii_of_string s.
Definition script : list (line nat) :=
  [LMark "start"; LRead (bytes_of "abcd") 3 None; LSeek 0 SeekEnd 9 None; LReadAt (bytes_of "xy") 7 2 (Some EOF); LClose None].
Definition expectations : list (expectation nat) := omap written script.
Example C50_example_written : Forall2 (fun l x => written l = Some x) script expectations.
Proof. repeat constructor. Qed.
Example C50_example :
  mrun (Some (newMock expectations)) [MMark "start"; MRead (bytes_of "...."); MSeek 0 SeekEnd; MReadAt (bytes_of "..") 7; MClose] =
  [MUnit; MBytes 3 (bytes_of "abc.") None; MInt 9 None; MBytes 2 (bytes_of "xy") (Some EOF); MErr None].
Proof. reflexivity. Qed.
(** The buffer is too short, and the call after it is answered by the next line. *)
Example C50_example_mismatch :
  match mrun (Some (newMock expectations)) [MMark "start"; MRead (bytes_of "..."); MSeek 0 SeekEnd; MSeek 0 SeekEnd; MClose; MClose] with
  | [MUnit; MFailed 1 _ _; MInt 9 None; MFailed 3 _ _; MErr None; MFailed 5 _ _] => True
  | _ => False
  end.
Proof. exact I. Qed.
