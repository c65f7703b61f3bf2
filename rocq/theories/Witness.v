(** * A concrete outside world, used by the examples only

    Readers over fixed byte strings.  The state is the list of their cursors. *)
From stdpp Require Import gmap.
From Verif Require Export StreamSpec.

Record source := {
  so_data : bytes;                (* what it serves *)
  so_caps : caps;                 (* which interfaces it implements *)
  so_chunk : nat;                 (* most bytes one Read delivers *)
  so_last : error;                (* reported at the end, normally EOF *)
  so_close : option error         (* reported by Close *)
}.

Definition demo_read (s : source) (pos : nat) (p : bytes) : nat * (Z * bytes * option error) :=
  let k := Nat.min (Nat.min (length p) (so_chunk s)) (length (so_data s) - pos) in
  (pos + k,
   (Z.of_nat k, take k (drop pos (so_data s)) ++ drop k p,
    if (k =? 0)%nat && negb (length p =? 0)%nat then Some (so_last s) else None))%nat.

Definition no_source : source :=
  {| so_data := []; so_caps := {| cp_file := false; cp_seeker := false; cp_readerat := false; cp_closer := false |};
     so_chunk := 1; so_last := EOF; so_close := None |}.

Definition demo (ss : list source) : env (list nat) :=
  let src r := nth r ss no_source in
  {| ev_caps := fun r => so_caps (src r);
     ev_read := fun w r p =>
       let '(pos, x) := demo_read (src r) (nth r w 0%nat) p in (<[r := pos]> w, x);
     ev_readat := fun w r p off =>
       let d := drop (Z.to_nat off) (so_data (src r)) in
       let k := Nat.min (length p) (length d) in
       (w, (Z.of_nat k, take k d ++ drop k p, if (k <? length p)%nat then Some EOF else None));
     ev_seek := fun w r off wh =>
       let base := if wh =? 1 then Z.of_nat (nth r w 0%nat) else if wh =? 2 then zlen (so_data (src r)) else 0 in
       let n := wrap64 (base + off) in
       if n <? 0 then (w, (n, Some (External 1))) else (<[r := Z.to_nat n]> w, (n, None));
     ev_close := fun w r => (w, so_close (src r));
     ev_stat := fun w r => (w, (Z.min max_i64 (zlen (so_data (src r))), None));
     ev_write := fun w i p => (w, inl (zlen p, None)) |}.

Definition bs (s : string) : bytes := list_ascii_of_string s.
Definition buf (n : nat) : bytes := replicate n zero_byte.
Definition plain : caps := {| cp_file := false; cp_seeker := false; cp_readerat := false; cp_closer := true |}.
Definition seekable : caps := {| cp_file := false; cp_seeker := true; cp_readerat := false; cp_closer := true |}.
Definition random_access : caps := {| cp_file := false; cp_seeker := true; cp_readerat := true; cp_closer := true |}.

Definition hello (c : caps) (chunk : nat) : source :=
  {| so_data := bs "hello world"; so_caps := c; so_chunk := chunk; so_last := EOF; so_close := None |}.

Lemma wrap64_in z : in_i64 (wrap64 z).
Proof.
  unfold in_i64, wrap64, min_i64, max_i64.
  pose proof (Z.mod_pos_bound (z + 2 ^ 63) (2 ^ 64) ltac:(lia)). lia.
Qed.
Lemma demo_go ss : go_env (demo ss).
Proof.
  split; intros; cbn.
  - unfold in_i64, min_i64, max_i64, zlen. lia.
  - destruct (_ <? 0); cbn; apply wrap64_in.
Qed.

(** A single plain Reader; the state is its cursor. *)
Definition lone (s : source) : env nat :=
  {| ev_caps := fun _ => so_caps s;
     ev_read := fun w r p => if decide (r = 0%nat) then demo_read s (Nat.min w (length (so_data s))) p else (w, (0, p, Some EOF));
     ev_readat := fun w _ p _ => (w, (0, p, Some EOF));
     ev_seek := fun w _ _ _ => (w, (0, Some (External 1)));
     ev_close := fun w _ => (w, so_close s);
     ev_stat := fun w _ => (w, (0, Some (External 1)));
     ev_write := fun w _ p => (w, inl (zlen p, None)) |}.
Lemma lone_go s : go_env (lone s).
Proof. split; intros; cbn; unfold in_i64, min_i64, max_i64; lia. Qed.
Lemma lone_streams s : (0 < so_chunk s)%nat -> streams (lone s) 0 (fun w => Nat.min w (length (so_data s))) (so_data s) (so_last s).
Proof.
  intros Hc. constructor; try done.
  2: intros w r' p Hr; by destruct r'.
  intros w p w' n q err. cbn [lone ev_read]. rewrite decide_True by done. unfold demo_read.
  set (l := length (so_data s)). set (k := Nat.min _ (l - _)). intros [= <- <- <- <-].
  assert (k <= length p /\ k <= l - Nat.min w l)%nat as [Hk1 Hk2] by (unfold k; lia).
  rewrite Nat2Z.id. unfold zlen. split; [lia|]. split; [lia|]. split; [lia|]. split.
  - assert (Hl : length (take k (drop (w `min` l) (so_data s))) = k) by (rewrite take_length, drop_length; unfold l in *; lia).
    rewrite take_app_le by lia. rewrite take_take. f_equal. lia.
  - destruct (k =? 0)%nat eqn:Hx; [|by left]. destruct (length p =? 0)%nat eqn:Hp; [by left|]. cbn [andb negb]. right. split; [done|].
    apply Nat.eqb_eq in Hx. apply Nat.eqb_neq in Hp. unfold k in *. lia.
Qed.

Lemma no_spin (os : list (out res)) : forallb (fun o => match o with OSpin => false | _ => true end) os = true -> OSpin ∉ os.
Proof. induction os as [|o os IH]; cbn; intros H; [apply not_elem_of_nil|]. apply andb_prop in H as [H1 H2]. apply not_elem_of_cons. split; [by destruct o|auto]. Qed.

(** A Writer taking [k] bytes of each Write. *)
Definition scribe (k : Z) : env (list nat) :=
  let E := demo [] in
  {| ev_caps := ev_caps E; ev_read := ev_read E; ev_readat := ev_readat E; ev_seek := ev_seek E; ev_close := ev_close E;
     ev_stat := ev_stat E;
     ev_write := fun w i p => (w, inl (Z.min k (zlen p), if k <? zlen p then Some (External 7) else None)) |}.
Lemma scribe_go k : go_env (scribe k).
Proof. apply (demo_go []). Qed.
