(** * Facts about header names, numbers and base64 *)
From stdpp Require Import gmap.
From Coq Require Import ZifyBool DecimalString DecimalZ.
From Verif Require Import BuilderSpec.

(** All characters, one by one. *)
Lemma all_ascii (P : ascii -> bool) : forallb P (map ascii_of_nat (seq 0 256)) = true -> forall c, P c = true.
Proof.
  intros H c. rewrite forallb_forall in H. apply H. apply in_map_iff. exists (nat_of_ascii c). split; [apply ascii_nat_embedding|].
  apply in_seq. pose proof (nat_ascii_bounded c). lia.
Qed.

(** ** Names *)
Lemma lower_upper c : to_lower (to_upper c) = to_lower c.
Proof. apply Ascii.eqb_eq. apply (all_ascii (fun c => Ascii.eqb (to_lower (to_upper c)) (to_lower c))). vm_compute. done. Qed.
Lemma lower_lower c : to_lower (to_lower c) = to_lower c.
Proof. apply Ascii.eqb_eq. apply (all_ascii (fun c => Ascii.eqb (to_lower (to_lower c)) (to_lower c))). vm_compute. done. Qed.
Lemma upper_lower c : to_upper (to_lower c) = to_upper c.
Proof. apply Ascii.eqb_eq. apply (all_ascii (fun c => Ascii.eqb (to_upper (to_lower c)) (to_upper c))). vm_compute. done. Qed.
Lemma token_upper c : is_token (to_upper c) = is_token c.
Proof. apply eqb_prop. apply (all_ascii (fun c => Bool.eqb (is_token (to_upper c)) (is_token c))). vm_compute. done. Qed.
Lemma token_lower c : is_token (to_lower c) = is_token c.
Proof. apply eqb_prop. apply (all_ascii (fun c => Bool.eqb (is_token (to_lower c)) (is_token c))). vm_compute. done. Qed.
Lemma canonical_lower u s : lower_case (canonical_from u s) = lower_case s.
Proof.
  revert u. induction s as [|c s IH]; intros u; [done|]. unfold lower_case in *. cbn. rewrite IH. f_equal. destruct u; [apply lower_upper|apply lower_lower].
Qed.
Lemma canonical_same u s t : lower_case s = lower_case t -> canonical_from u s = canonical_from u t.
Proof.
  revert u t. induction s as [|c s IH]; intros u [|d t]; [done..|]. unfold lower_case in *. cbn. intros [= Hc Ht].
  assert (H : (if u then to_upper c else to_lower c) = (if u then to_upper d else to_lower d)).
  { destruct u; [|done]. rewrite <- (upper_lower c), <- (upper_lower d). congruence. }
  rewrite H. f_equal. by apply IH.
Qed.
Lemma token_name_bool s : token_name s <-> forallb is_token (list_ascii_of_string s) = true.
Proof. unfold token_name. rewrite forallb_forall, Forall_forall. split; intros H x Hx; apply H; by apply elem_of_list_In. Qed.
Lemma canonical_token u s : forallb is_token (list_ascii_of_string (canonical_from u s)) = forallb is_token (list_ascii_of_string s).
Proof. revert u. induction s as [|c s IH]; intros u; [done|]. cbn. rewrite IH. f_equal. destruct u; [apply token_upper|apply token_lower]. Qed.
Theorem same_header : forall n1 n2, token_name n1 -> token_name n2 ->
  CanonicalHeaderKey n1 = CanonicalHeaderKey n2 <-> lower_case n1 = lower_case n2.
Proof.
  intros n1 n2 H1%token_name_bool H2%token_name_bool. unfold CanonicalHeaderKey. rewrite H1, H2. split; [|apply canonical_same].
  intros H. rewrite <- (canonical_lower true n1), H. apply canonical_lower.
Qed.
Theorem canonical_twice : forall n, CanonicalHeaderKey (CanonicalHeaderKey n) = CanonicalHeaderKey n.
Proof.
  intros n. unfold CanonicalHeaderKey. destruct (forallb is_token (list_ascii_of_string n)) eqn:H; [|by rewrite H].
  rewrite canonical_token, H. apply canonical_same, canonical_lower.
Qed.

(** ** Numbers *)
Theorem itoa_decimal : forall n, option_map Z.of_int (NilZero.int_of_string (itoa n)) = Some n.
Proof.
  intros n. unfold itoa.
  assert (H1 : Z.to_int n <> Decimal.Pos Decimal.Nil). { intros H. pose proof (of_to n) as E. rewrite H in E. cbn in E. subst n. done. }
  assert (H2 : Z.to_int n <> Decimal.Neg Decimal.Nil). { intros H. pose proof (of_to n) as E. rewrite H in E. cbn in E. subst n. done. }
  rewrite NilZero.isi by done. cbn. f_equal. apply of_to.
Qed.

(** ** Base64 *)
Lemma b64_index n : 0 <= n < 64 -> index_of (b64_char n) b64_alphabet = n /\ Ascii.eqb (b64_char n) "=" = false.
Proof.
  intros Hn. assert (H : forallb (fun k => let n := Z.of_nat k in (index_of (b64_char n) b64_alphabet =? n) && negb (Ascii.eqb (b64_char n) "=")) (seq 0 64) = true) by (vm_compute; done).
  rewrite forallb_forall in H. specialize (H (Z.to_nat n)). rewrite in_seq in H. cbv zeta in H. rewrite Z2Nat.id in H by lia.
  assert (H' := H ltac:(lia)). apply andb_prop in H' as [H1 H2]. split; [lia|]. by destruct (Ascii.eqb _ _).
Qed.
Lemma byte_of_code c : byte_of (code c) = c.
Proof. unfold byte_of, code. rewrite Z.mod_small; [|pose proof (nat_ascii_bounded c); lia]. rewrite Nat2Z.id. apply ascii_nat_embedding. Qed.
Lemma byte_of_mod z c : z mod 256 = code c -> byte_of z = c.
Proof. intros H. rewrite <- (byte_of_code c). unfold byte_of. by rewrite H, <- H, Z.mod_mod by lia. Qed.
Lemma code_range c : 0 <= code c < 256.
Proof. unfold code. pose proof (nat_ascii_bounded c). lia. Qed.
Lemma list_induct3 {A} (P : list A -> Prop) : P [] -> (forall a, P [a]) -> (forall a b, P [a; b]) -> (forall a b c l, P l -> P (a :: b :: c :: l)) -> forall l, P l.
Proof. intros H0 H1 H2 H3. fix IH 1. intros [|a [|b [|c l]]]; [done..|]. apply H3, IH. Qed.
Ltac Zpos := Z.to_euclidean_division_equations; lia.
Theorem b64_round_trip : forall d, b64_decode (list_ascii_of_string (b64_encode d)) = d.
Proof.
  intros d. induction d as [|a|a b|a b c d IH] using list_induct3; [done|..].
  - pose proof (code_range a). cbn [b64_encode list_ascii_of_string b64_decode].
    destruct (b64_index (code a * 65536 / 262144)) as [-> _]; [Zpos|]. destruct (b64_index (code a * 65536 / 4096 mod 64)) as [-> _]; [Zpos|].
    cbn [Ascii.eqb Bool.eqb]. change (Ascii.eqb "=" "=") with true. cbn [app]. cbv iota. unfold byte in *. f_equal. apply byte_of_mod. Zpos.
  - pose proof (code_range a). pose proof (code_range b). cbn [b64_encode list_ascii_of_string b64_decode].
    set (n := code a * 65536 + code b * 256).
    destruct (b64_index (n / 262144)) as [-> _]; [unfold n; Zpos|]. destruct (b64_index (n / 4096 mod 64)) as [-> _]; [Zpos|].
    destruct (b64_index (n / 64 mod 64)) as [-> ->]; [Zpos|].
    change (Ascii.eqb "=" "=") with true. cbv iota. cbn [app]. unfold byte in *. f_equal; [|f_equal]; apply byte_of_mod.
    + unfold n. Zpos.
    + unfold n. Zpos.
  - pose proof (code_range a). pose proof (code_range b). pose proof (code_range c). cbn [b64_encode list_ascii_of_string b64_decode].
    set (n := code a * 65536 + code b * 256 + code c).
    destruct (b64_index (n / 262144)) as [-> _]; [unfold n; Zpos|]. destruct (b64_index (n / 4096 mod 64)) as [-> _]; [Zpos|].
    destruct (b64_index (n / 64 mod 64)) as [-> ->]; [Zpos|]. destruct (b64_index (n mod 64)) as [-> ->]; [Zpos|].
    cbv iota. cbn [app]. unfold byte in *. f_equal; [|f_equal; [|f_equal; [|exact IH]]]; apply byte_of_mod.
    + unfold n. Zpos.
    + unfold n. Zpos.
    + unfold n. Zpos.
Qed.

(** ** html.EscapeString *)
Lemma list_of_append a b : list_ascii_of_string (a +:+ b) = list_ascii_of_string a ++ list_ascii_of_string b.
Proof. induction a as [|c a IH]; [done|]. change (list_ascii_of_string (String c a +:+ b)) with (c :: list_ascii_of_string (a +:+ b)). by rewrite IH. Qed.
Lemma escape_cons c s : list_ascii_of_string (EscapeString (String c s)) = list_ascii_of_string (escape_char c) ++ list_ascii_of_string (EscapeString s).
Proof. apply list_of_append. Qed.
Lemma unescape_escape_char c t : unescape (list_ascii_of_string (escape_char c) ++ t) = c :: unescape t.
Proof.
  unfold escape_char. destruct (Ascii.eqb_spec c "&") as [->|H1]; [done|]. destruct (Ascii.eqb_spec c "'") as [->|H2]; [done|].
  destruct (Ascii.eqb_spec c "<") as [->|H3]; [done|]. destruct (Ascii.eqb_spec c ">") as [->|H4]; [done|]. destruct (Ascii.eqb_spec c """") as [->|H5]; [done|].
  cbn [list_ascii_of_string app]. destruct c as [[] [] [] [] [] [] [] []]; first [reflexivity|by destruct H1].
Qed.
Theorem unescape_escape : forall s, unescape (list_ascii_of_string (EscapeString s)) = list_ascii_of_string s.
Proof. intros s. induction s as [|c s IH]; [done|]. rewrite escape_cons, unescape_escape_char, IH. done. Qed.
Lemma harmless_char c : forall d, d ∈ list_ascii_of_string (escape_char c) -> d <> "<"%char /\ d <> ">"%char /\ d <> """"%char /\ d <> "'"%char.
Proof.
  intros d Hd. unfold escape_char in Hd.
  repeat match type of Hd with context [if Ascii.eqb c ?x then _ else _] => destruct (Ascii.eqb_spec c x) end;
  cbn in Hd; rewrite ?elem_of_cons in Hd; repeat (destruct Hd as [->|Hd]; [done|]); by apply elem_of_nil in Hd.
Qed.
Lemma amp_char c t a b : list_ascii_of_string (escape_char c) ++ t = a ++ "&"%char :: b ->
  (exists e, a = [] /\ b = list_ascii_of_string e ++ t /\ e ∈ ["amp;"; "#39;"; "lt;"; "gt;"; "#34;"]) \/ exists a', t = a' ++ "&"%char :: b.
Proof.
  intros H. destruct a as [|x a].
  - left. cbn in H. unfold escape_char in H. exists (if Ascii.eqb c "&" then "amp;" else if Ascii.eqb c "'" then "#39;" else if Ascii.eqb c "<" then "lt;" else if Ascii.eqb c ">" then "gt;" else "#34;").
    split; [done|]. destruct (Ascii.eqb_spec c "&"); [injection H as <-; split; [done|set_solver]|]. destruct (Ascii.eqb_spec c "'"); [injection H as <-; split; [done|set_solver]|].
    destruct (Ascii.eqb_spec c "<"); [injection H as <-; split; [done|set_solver]|]. destruct (Ascii.eqb_spec c ">"); [injection H as <-; split; [done|set_solver]|].
    destruct (Ascii.eqb_spec c """"); [injection H as <-; split; [done|set_solver]|]. cbn in H. congruence.
  - right. unfold escape_char in H.
    repeat match type of H with context [if Ascii.eqb c ?x then _ else _] => destruct (Ascii.eqb_spec c x) end; cbn in H; injection H as <- H;
      repeat (destruct a as [|? a]; cbn in H; [first [discriminate H|eexists []; exact H]|injection H as <- H]); by exists a.
Qed.
Theorem escape_harmless : forall s, harmless (list_ascii_of_string (EscapeString s)).
Proof.
  intros s. induction s as [|c s [IH1 IH2]].
  - split; [intros c Hc; by apply elem_of_nil in Hc|]. intros [] b H; done.
  - rewrite escape_cons. split.
    + intros d [Hd|Hd]%elem_of_app; [by eapply harmless_char|by apply IH1].
    + intros a b [(e & -> & -> & He)|(a' & H')]%amp_char; [by exists e, (list_ascii_of_string (EscapeString s))|]. by eapply IH2.
Qed.

(** ** strings.TrimSpace *)
Lemma space_codes_eq : space_codes = map utf8_of white_space.
Proof. vm_compute. done. Qed.
Lemma strip_prefix_Some p s r : Text.strip_prefix p s = Some r <-> s = p ++ r.
Proof.
  revert s. induction p as [|a p IH]; intros s; cbn; [naive_solver|]. destruct s as [|b s]; [done|]. destruct (Ascii.eqb_spec a b) as [->|H].
  - rewrite IH. naive_solver.
  - naive_solver.
Qed.
Lemma strip_first_Some codes s r : strip_first codes s = Some r -> exists c, c ∈ codes /\ s = c ++ r.
Proof.
  induction codes as [|c codes IH]; cbn; [done|]. destruct (Text.strip_prefix c s) eqn:H.
  - intros [= ->]. exists c. split; [left|by apply strip_prefix_Some].
  - intros (d & Hd & ->)%IH. exists d. split; [by right|done].
Qed.
Lemma strip_first_None codes s c r : strip_first codes s = None -> c ∈ codes -> s <> c ++ r.
Proof.
  induction codes as [|d codes IH]; cbn; [by rewrite elem_of_nil|]. destruct (Text.strip_prefix d s) eqn:H; [done|]. intros H1 [->|Hc]%elem_of_cons.
  - intros Hs. apply strip_prefix_Some in Hs. congruence.
  - by apply IH.
Qed.
Lemma strip_all_spec codes : (forall c, c ∈ codes -> c <> []) -> forall n s, (length s <= n)%nat ->
  strip_first codes (strip_all n codes s) = None /\ exists l, Forall (fun c => c ∈ codes) l /\ s = concat l ++ strip_all n codes s.
Proof.
  intros Hne. induction n as [|n IH]; intros s Hs; cbn.
  - destruct s as [|x s]; [|cbn in Hs; lia]. split; [|by exists []]. destruct (strip_first codes []) as [r|] eqn:H; [|done].
    apply strip_first_Some in H as (c & Hc & H). symmetry in H. apply app_eq_nil in H as [-> _]. by apply Hne in Hc.
  - destruct (strip_first codes s) as [r|] eqn:H; [|split; [done|by exists []]]. apply strip_first_Some in H as (c & Hc & ->).
    destruct (IH r) as (H1 & l & Hl & H2).
    { rewrite app_length in Hs. destruct c; [by apply Hne in Hc|]. unfold byte in *. cbn in Hs. lia. }
    split; [done|]. exists (c :: l). split; [by constructor|]. cbn. rewrite <- app_assoc. congruence.
Qed.
Lemma in_codes l : Forall (fun c => c ∈ space_codes) l -> exists zs, Forall (fun z => z ∈ white_space) zs /\ concat l = spaces zs.
Proof.
  rewrite space_codes_eq. induction 1 as [|c l Hc Hl IH]; [by exists []|]. destruct IH as (zs & Hz & IH). apply elem_of_list_fmap in Hc as (z & -> & Hin).
  exists (z :: zs). split; [by constructor|]. unfold spaces in *. cbn. by rewrite IH.
Qed.
Lemma rev_concat l : rev (concat l) = concat (rev (map (@rev ascii) l)).
Proof. induction l as [|c l IH]; [done|]. cbn. rewrite rev_app_distr, IH, concat_app. cbn. by rewrite app_nil_r. Qed.
Lemma codes_nonempty c : c ∈ space_codes -> c <> [].
Proof.
  intros Hc ->. assert (H : forallb (fun c => match c with [] => false | _ => true end) space_codes = true) by (vm_compute; done).
  rewrite forallb_forall in H. apply elem_of_list_In in Hc. by apply H in Hc.
Qed.
Theorem trim_space : forall s, exists l r,
  Forall (fun z => z ∈ white_space) l /\ Forall (fun z => z ∈ white_space) r /\
  list_ascii_of_string s = spaces l ++ list_ascii_of_string (TrimSpace s) ++ spaces r /\
  forall z, z ∈ white_space -> forall t, list_ascii_of_string (TrimSpace s) <> utf8_of z ++ t /\ list_ascii_of_string (TrimSpace s) <> t ++ utf8_of z.
Proof.
  intros s. unfold TrimSpace. rewrite list_ascii_of_string_of_list_ascii. set (d := list_ascii_of_string s). set (u := trim_left d).
  assert (Hu : strip_first space_codes u = None /\ exists l, Forall (fun c => c ∈ space_codes) l /\ d = concat l ++ u).
  { apply strip_all_spec; [apply codes_nonempty|done]. }
  destruct Hu as (Hu1 & l & Hl & Hd). set (w := strip_all (length u) (map (@rev ascii) space_codes) (rev u)).
  assert (Hw : strip_first (map (@rev ascii) space_codes) w = None /\ exists l, Forall (fun c => c ∈ map (@rev ascii) space_codes) l /\ rev u = concat l ++ w).
  { apply strip_all_spec; [|by rewrite rev_length]. intros c (c' & -> & Hc')%elem_of_list_fmap. intros H. apply (f_equal (@length ascii)) in H. rewrite rev_length in H.
    destruct c'; [by apply codes_nonempty in Hc'|done]. }
  destruct Hw as (Hw1 & l2 & Hl2 & Hw2). change (trim_right u) with (rev w).
  assert (Hu2 : u = rev w ++ rev (concat l2)). { rewrite <- rev_app_distr, <- Hw2. by rewrite rev_involutive. }
  destruct (in_codes l Hl) as (zs & Hzs & Hzl). destruct (in_codes (rev (map (@rev ascii) l2))) as (zs2 & Hzs2 & Hzl2).
  { apply Forall_forall. intros c Hc. apply elem_of_list_In, in_rev, elem_of_list_In in Hc. apply elem_of_list_fmap in Hc as (c' & -> & Hc').
    rewrite Forall_forall in Hl2. apply Hl2 in Hc'. apply elem_of_list_fmap in Hc' as (c2 & -> & Hc2). by rewrite rev_involutive. }
  exists zs, zs2. split; [done|]. split; [done|]. split.
  { etrans; [exact Hd|]. rewrite Hzl. f_equal. etrans; [exact Hu2|]. f_equal. rewrite rev_concat. exact Hzl2. }
  intros z Hz t. assert (Hin : utf8_of z ∈ space_codes) by (rewrite space_codes_eq; by apply elem_of_list_fmap_1). split; intros H.
  - apply (strip_first_None _ u (utf8_of z) (t ++ rev (concat l2)) Hu1 Hin). rewrite Hu2, H. by rewrite <- app_assoc.
  - apply (f_equal (@rev ascii)) in H. rewrite rev_involutive, rev_app_distr in H.
    apply (strip_first_None _ w (rev (utf8_of z)) (rev t) Hw1); [|done]. by apply elem_of_list_fmap_1.
Qed.
