(** * The locking discipline of the methods (proof infrastructure)

    A call goes through phases; [ok] says which action is allowed in a phase and
    [nx] which phase follows.  [keeps] says that a program keeps to this, whatever
    its loads and calls return. *)
From Coq Require Import ZifyBool.
From Verif Require Import Wf.
From Verif Require Export Conc ConcSpec.

Inductive kind := KClosed | KEmpty | KBytes | KSeeker | KReaderAt | KBuffered.
Global Instance kind_eq_dec : EqDecision kind.
Proof. solve_decision. Defined.
Definition kind_of (b : bobj) : kind :=
  match b with
  | BClosed => KClosed | BEmpty _ => KEmpty | BBytes _ => KBytes
  | BSeeker _ => KSeeker | BReaderAt _ => KReaderAt | BBuffered _ => KBuffered
  end.
Definition private (k : kind) : bool := match k with KEmpty | KBytes => true | _ => false end.
Definition readers_of (x : cobj) : list rid :=
  match x with
  | CSeeker x => option_list (sc_s x)
  | CReaderAt x => option_list (rc_r x) ++ option_list (rc_at x)
  | CBuffered x => option_list (bc_r x)
  end.
Definition bodies_of (x : cobj) : list nat := match x with CBuffered x => default [] (bc_bodies x) | _ => [] end.

Definition klen (x : cobj) : option Z := match x with CSeeker x => Some (sc_length x) | _ => None end.
(** A Body that is not closed has its shared object. *)
Definition bwf (b : bobj) : Prop :=
  match b with
  | BSeeker b => sb_closed b = false -> sb_common b <> None
  | BReaderAt b => rb_closed b = false -> rb_common b <> None
  | BBuffered b => bb_closed b = false -> bb_common b <> None
  | _ => True
  end.

Inductive ph :=
| P0                                                (* holds no lock *)
| PN (c : nat) (x : cobj)                           (* has made the shared object [c] *)
| PM (c : nat) (x : cobj) (j : nat) (b : bobj)                 (* ... and the Body [j] *)
| PA (i : nat)                                      (* holds body.mu of [i] *)
| PB (i : nat) (b : bobj)                           (* ... and has loaded the Body *)
| PG (i : nat) (b : bobj) (j : nat)                 (* ... and has made its copy [j] *)
| PE (i : nat) (b b' : bobj)                        (* ... and has changed it to [b'] *)
| PC (o : option (nat * bobj)) (c : nat) (d : option (nat * kind)) (cur : option cobj) (rs : list rid)  (* holds common.mu as well *)
| PX (o : option (nat * bobj)) (c : nat) (d : option (nat * kind))   (* ... and only has to give it back *)
| PD (i : nat) (b : bobj) (out : bool) (d : option (nat * kind))     (* holds body.mu and needs nothing else *)
| PF (d : option (nat * kind)).                     (* finished *)

(** The Body a call has made. *)
Definition fr (s : ph) : option nat :=
  match s with
  | PM _ _ j _ | PG _ _ j => Some j
  | PC _ _ d _ _ | PX _ _ d | PD _ _ _ d | PF d => fst <$> d
  | _ => None
  end.

(** The command a program belongs to: the Reader and the handles it is given, and
    whether it is BytesRemaining. *)
Record par := { p_rd : option rid; p_hd : option nat; p_known : list nat; p_br : bool }.

Definition ok (rd : par) (s : ph) {X} (a : act X) : Prop :=
  match s with
  | P0 => match a with
          | Lock (MuB i) => p_hd rd = Some i
          | Caps _ => p_hd rd = None
          | CallStat r | CallSeek r _ _ => p_rd rd = Some r
          | NewC x => (forall r, r ∈ readers_of x -> p_rd rd = Some r) /\ bodies_of x = [] /\ p_hd rd = None
          | NewB b => body_common b = None /\ bwf b /\ p_hd rd = None
          | _ => False
          end
  | PN c x => match a with NewB b => body_common b = Some c /\ bwf b | _ => False end
  | PM c x j b => match a with Lock (MuC c') => c' = c | _ => False end
  | PA i => match a with LoadB j => j = i | _ => False end
  | PB i b => match a with
              | StoreB j b' => j = i /\ kind_of b' = kind_of b /\ body_common b' = None /\ kind_of b <> KBuffered /\ bwf b'
              | NewB d => kind_of d = kind_of b /\ body_common d = body_common b /\ bwf d
              | Lock (MuC c) => body_common b = Some c
              | LoadC c => body_common b = Some c /\ kind_of b = KSeeker /\ p_br rd = true
              | CallWrite _ _ => private (kind_of b) = true
              | Unlock (MuB j) => j = i
              | _ => False
              end
  | PG i b j => match a with
                | Lock (MuC c) => body_common b = Some c
                | Unlock (MuB j) => j = i /\ body_common b = None /\ private (kind_of b) = true
                | _ => False
                end
  | PE i b b' => match a with
                 | Lock (MuC c) => body_common b = Some c
                 | _ => False
                 end
  | PC o c d cur rs =>
      match a with
      | LoadB j => j ∈ (fst <$> option_list o) \/ j ∈ (fst <$> option_list d) \/ exists x, cur = Some x /\ j ∈ bodies_of x
      | StoreB j b' => exists b, o = Some (j, b) /\ kind_of b' = kind_of b /\ body_common b' = body_common b /\ bwf b'
      | LoadC c' => c' = c
      | StoreC c' x' => c' = c /\ exists x, cur = Some x /\
          (forall j, j ∈ bodies_of x' -> d = Some (j, KBuffered) \/ j ∈ bodies_of x) /\ (forall r, r ∈ readers_of x' -> r ∈ readers_of x)
      | Caps _ => True
      | CallRead r _ | CallReadAt r _ _ | CallSeek r _ _ | CallClose r => r ∈ rs
      | Unlock (MuC c') => c' = c
      | _ => False
      end
  | PX o c d => match a with Unlock (MuC c') => c' = c | _ => False end
  | PD i b out d => match a with
                  | StoreB j b' => j = i /\ kind_of b' = kind_of b /\ (body_common b' = None \/ body_common b' = body_common b) /\
                      (kind_of b = KBuffered -> out = true) /\ bwf b' /\ p_br rd = false
                  | Unlock (MuB j) => j = i
                  | _ => False
                  end
  | PF _ => False
  end.

Definition released (o : option (nat * bobj)) (cur : option cobj) (d : option (nat * kind)) : ph :=
  match o with
  | Some (i, b) => PD i b match cur with Some x => bool_decide (i ∉ bodies_of x) | None => false end d
  | None => PF d
  end.
Definition nx (s : ph) {X} (a : act X) : X -> ph :=
  match s with
  | P0 => match a in act X return X -> ph with
          | Lock (MuB i) => fun _ => PA i
          | NewC x => fun c => PN c x
          | NewB b => fun j => PF (Some (j, kind_of b))
          | _ => fun _ => P0
          end
  | PN c x => match a in act X return X -> ph with NewB b => fun j => PM c x j b | _ => fun _ => PF None end
  | PM c x j b => fun _ => PC None c (Some (j, kind_of b)) None []
  | PA i => match a in act X return X -> ph with LoadB _ => fun b => PB i b | _ => fun _ => PF None end
  | PB i b => match a in act X return X -> ph with
              | StoreB _ b' => fun _ => if private (kind_of b) then PD i b false None else PE i b b'
              | NewB _ => fun j => PG i b j
              | Lock (MuC c) => fun _ => PC (Some (i, b)) c None None []
              | LoadC _ => fun _ => PD i b false None
              | CallWrite _ _ => fun _ => PD i b false None
              | _ => fun _ => PF None
              end
  | PG i b j => match a in act X return X -> ph with
                | Lock (MuC c) => fun _ => PC (Some (i, b)) c (Some (j, kind_of b)) None []
                | _ => fun _ => PF (Some (j, kind_of b))
                end
  | PE i b b' => match a in act X return X -> ph with
                 | Lock (MuC c) => fun _ => PC (Some (i, b)) c None None []
                 | _ => fun _ => PF None
                 end
  | PC o c d cur rs =>
      match a in act X return X -> ph with
      | LoadC _ => fun x => PC o c d (Some x) (readers_of x ++ rs)
      | StoreC _ x' => fun _ => match cur with
                                | Some x => if decide (klen x' = klen x) then PC o c d (Some x') rs else PX o c d
                                | None => PF None
                                end
      | Unlock _ => fun _ => released o cur d
      | _ => fun _ => PC o c d cur rs
      end
  | PX o c d => fun _ => released o None d
  | PD i b out d => match a in act X return X -> ph with StoreB _ _ => fun _ => PD i b out d | _ => fun _ => PF d end
  | PF d => fun _ => PF d
  end.

(** What is known of the result of a load. *)
Definition rok (s : ph) {X} (a : act X) : X -> Prop :=
  match s with
  | PA _ => match a in act X return X -> Prop with LoadB _ => bwf | _ => fun _ => True end
  | PC _ _ _ (Some y) _ => match a in act X return X -> Prop with LoadC _ => fun x => x = y | _ => fun _ => True end
  | _ => fun _ => True
  end.
(** Only the length matters to what is done after a load without common.mu. *)
Definition ext (s : ph) {X A} (a : act X) : (X -> prog A) -> Prop :=
  match s with
  | PB _ _ => match a in act X return (X -> prog A) -> Prop with LoadC _ => fun k => forall x y, klen x = klen y -> k x = k y | _ => fun _ => True end
  | _ => fun _ => True
  end.
Definition may_spin (s : ph) : Prop := match s with PC _ _ _ _ _ => True | _ => False end.

Section Keeps.
Context (rd : par).
Fixpoint keeps {A} (s : ph) (m : prog A) (Q : ph -> option A -> Prop) : Prop :=
  match m with
  | Ret a => Q s (Some a)
  | Panic _ => Q s None
  | Spin => may_spin s
  | Do a k => ok rd s a /\ ext s a k /\ forall x, rok s a x -> keeps (nx s a x) (k x) Q
  end.

Lemma keeps_mono {A} (m : prog A) : forall s (Q Q' : ph -> option A -> Prop),
  (forall s r, Q s r -> Q' s r) -> keeps s m Q -> keeps s m Q'.
Proof. induction m as [a|e| |X a k IH]; intros s Q Q' HQ; cbn; eauto. intros (H1 & H2 & H3). split; [done|]. split; [done|]. eauto. Qed.
Lemma ext_map {A B} s X (a : act X) (k : X -> prog A) (f : prog A -> prog B) : ext s a k -> ext s a (fun x => f (k x)).
Proof. destruct s; try done. destruct a; try done. cbn. intros H x y Hxy. by rewrite (H x y). Qed.
Lemma ext_const {A} s X (a : act X) (m : prog A) : ext s a (fun _ => m).
Proof. destruct s; try done. by destruct a. Qed.
Lemma keeps_bind {A B} (m : prog A) (k : A -> prog B) : forall s (Q : ph -> option B -> Prop),
  keeps s m (fun s' r => match r with Some a => keeps s' (k a) Q | None => Q s' None end) -> keeps s (bind m k) Q.
Proof. induction m as [a|e| |X a k' IH]; intros s Q; cbn; try done. intros (H1 & H2 & H3). split; [done|]. split; [by apply (ext_map _ _ _ k' (fun m => bind m k))|]. eauto. Qed.
Lemma keeps_deferred {A} (m : prog A) (u : act unit) : forall s (Q : ph -> option A -> Prop),
  keeps s m (fun s' r => ok rd s' u /\ forall x, rok s' u x -> Q (nx s' u x) r) -> keeps s (deferred m u) Q.
Proof. induction m as [a|e| |X a k' IH]; intros s Q; cbn [deferred keeps]; try done.
  1-2: intros [H1 H2]; eauto using ext_const.
  intros (H1 & H2 & H3). split; [done|]. split; [by apply (ext_map _ _ _ k' (fun m => deferred m u))|]. eauto.
Qed.
Lemma keeps_perform {A} (a : act A) s (Q : ph -> option A -> Prop) : ok rd s a -> ext s a (@Ret A) -> (forall x, rok s a x -> Q (nx s a x) (Some x)) -> keeps s (perform a) Q.
Proof. intros H1 H2 H3. cbn. eauto. Qed.
Lemma keeps_locked {A} l (m : prog A) s (Q : ph -> option A -> Prop) :
  ok rd s (Lock l) -> (rok s (Lock l) tt -> keeps (nx s (Lock l) tt) m (fun s' r => ok rd s' (Unlock l) /\ forall x, rok s' (Unlock l) x -> Q (nx s' (Unlock l) x) r)) ->
  keeps s (locked l m) Q.
Proof. intros H1 H2. cbn. split; [done|]. split; [by destruct s|]. intros []. intros H. apply keeps_deferred. eauto. Qed.
Lemma keeps_ret {A} (a : A) s (Q : ph -> option A -> Prop) : Q s (Some a) -> keeps s (Ret a) Q.
Proof. done. Qed.
Lemma keeps_panic {A} e s (Q : ph -> option A -> Prop) : Q s None -> keeps s (Panic e) Q.
Proof. done. Qed.
Lemma keeps_of_option {A} e (o : option A) s (Q : ph -> option A -> Prop) :
  (forall a, o = Some a -> Q s (Some a)) -> (o = None -> Q s None) -> keeps s (of_option e o) Q.
Proof. destruct o; cbn; auto. Qed.
Lemma keeps_assert b s (Q : ph -> option unit -> Prop) : (b = true -> Q s (Some tt)) -> (b = false -> Q s None) -> keeps s (assert b) Q.
Proof. destruct b; cbn; auto. Qed.
End Keeps.

(** ** The methods *)
Definition idle (s : ph) : Prop := match s with P0 | PF _ => True | _ => False end.
Definition stops (rd : par) (s : ph) (r : option res) : Prop :=
  idle s /\ forall j e, r = Some (RBody j e) -> (j = closedSingleton \/ fr s = Some j) \/ j ∈ p_known rd.

Ltac kp_step :=
  match goal with
  | |- keeps _ _ (rint _) _ => unfold rint
  | |- keeps _ _ (rread _) _ => unfold rread
  | |- keeps _ _ (rerr _) _ => unfold rerr
  | |- keeps _ _ (rseek _) _ => unfold rseek
  | |- keeps _ _ (rwriteto _) _ => unfold rwriteto
  | |- keeps _ _ (rbody _) _ => unfold rbody
  | |- keeps _ _ (rreader _) _ => unfold rreader
  | |- keeps _ _ (rnew _) _ => unfold rnew
  | |- keeps _ _ (rfrom _) _ => unfold rfrom
  | |- keeps _ _ (ldEmpty _) _ => unfold ldEmpty
  | |- keeps _ _ (ldBytes _) _ => unfold ldBytes
  | |- keeps _ _ (ldSeeker _) _ => unfold ldSeeker
  | |- keeps _ _ (ldReaderAt _) _ => unfold ldReaderAt
  | |- keeps _ _ (ldBuffered _) _ => unfold ldBuffered
  | |- keeps _ _ (call_write _ _) _ => unfold call_write
  | |- keeps _ _ (bind _ _) _ => apply keeps_bind
  | |- keeps _ _ (locked _ _) _ => apply keeps_locked; [|intros _]
  | |- keeps _ _ (of_option _ _) _ => apply keeps_of_option; intros
  | |- keeps _ _ (assert _) _ => apply keeps_assert; intros
  | |- keeps _ _ (perform _) _ => apply keeps_perform; [|solve [exact I | match goal with |- ext ?s _ _ => generalize s; let s' := fresh in intros s'; destruct s'; exact I end]|intros ? ?]
  | |- keeps _ _ (Ret _) _ => apply keeps_ret
  | |- keeps _ _ (Panic _) _ => apply keeps_panic
  | |- context [@decide (?a = ?a) ?d] => destruct (@decide (a = a) d) as [_|]; [|congruence]
  | |- context [if @decide ?P ?d then _ else _] => destruct (@decide P d)
  | |- keeps _ _ (if ?b then _ else _) _ => destruct b eqn:?
  | |- match ?y with Some _ => _ | None => _ end => destruct y eqn:?
  | |- keeps _ _ (match ?x with _ => _ end) _ => destruct x eqn:?
  | |- keeps _ _ (let _ := _ in _) _ => cbv zeta
  | |- keeps _ _ _ _ => fail 1
  | |- _ /\ _ => split
  | |- forall _, _ => intros
  | |- stops _ _ _ => split; [exact I|];
      let H := fresh in intros ? ? H; first [discriminate H | injection H as <- <-; left; first [left; reflexivity | right; reflexivity]]
  | |- _ => progress cbn
  end.
Ltac kp := repeat kp_step; cbn in *; try congruence; eauto.

Section Shapes.
Context (rd : par).

Lemma keeps_ldSeekerC (Q : ph -> option seekerCommon -> Prop) o c' d cur rs c : let s := PC o c' d cur rs in
  ok rd s (LoadC c) -> (forall x, rok s (LoadC c) (CSeeker x) -> Q (nx s (LoadC c) (CSeeker x)) (Some x)) ->
  (forall x, rok s (LoadC c) x -> Q (nx s (LoadC c) x) None) -> keeps rd s (ldSeekerC c) Q.
Proof. intros s H1 H2 H3. subst s. cbn. split; [done|]. split; [done|]. intros [] Hr; first [exact (H2 _ Hr) | exact (H3 _ Hr)]. Qed.
Lemma keeps_ldReaderAtC (Q : ph -> option readerAtCommon -> Prop) o c' d cur rs c : let s := PC o c' d cur rs in
  ok rd s (LoadC c) -> (forall x, rok s (LoadC c) (CReaderAt x) -> Q (nx s (LoadC c) (CReaderAt x)) (Some x)) ->
  (forall x, rok s (LoadC c) x -> Q (nx s (LoadC c) x) None) -> keeps rd s (ldReaderAtC c) Q.
Proof. intros s H1 H2 H3. subst s. cbn. split; [done|]. split; [done|]. intros [] Hr; first [exact (H2 _ Hr) | exact (H3 _ Hr)]. Qed.
Lemma keeps_ldBufferedC (Q : ph -> option bufferedCommon -> Prop) o c' d cur rs c : let s := PC o c' d cur rs in
  ok rd s (LoadC c) -> (forall x, rok s (LoadC c) (CBuffered x) -> Q (nx s (LoadC c) (CBuffered x)) (Some x)) ->
  (forall x, rok s (LoadC c) x -> Q (nx s (LoadC c) x) None) -> keeps rd s (ldBufferedC c) Q.
Proof. intros s H1 H2 H3. subst s. cbn. split; [done|]. split; [done|]. intros [] Hr; first [exact (H2 _ Hr) | exact (H3 _ Hr)]. Qed.

Lemma keeps_br (Q : ph -> option Z -> Prop) i b c z : ok rd (PB i b) (LoadC c) -> (forall n, Q (PD i b false None) n) ->
  keeps rd (PB i b) (bind (ldSeekerC c) (fun x => Ret (sc_length x - z))) Q.
Proof.
  intros H1 H2. cbn. split; [done|]. split; [|by intros []; cbn].
  intros [x|x|x] [y|y|y]; cbn; try done. by intros [= ->].
Qed.

Definition for_op i f : Prop := p_hd rd = Some i /\ p_br rd = match f with BytesRemaining => true | _ => false end.
Lemma keeps_mem fuel i f o : for_op i f -> o = KClosed \/ o = KEmpty \/ o = KBytes ->
  forall b, kind_of b = o -> keeps rd P0 (method fuel b i f) (stops rd).
Proof.
  intros [Hhd Hbr] Ho b <-. destruct b; try (by destruct Ho as [?|[?|?]]); destruct f; cbn [method];
  unfold closed_BytesRemaining, closed_Read, closed_Close, closed_Seek, closed_ReadAt, closed_WriteTo, closed_Copy, closed_Unwrap,
    empty_BytesRemaining, empty_Read, empty_Close, empty_Seek, empty_ReadAt, empty_WriteTo, empty_Copy, empty_Unwrap,
    bytes_BytesRemaining, bytes_Read, bytes_Close, bytes_Seek, bytes_ReadAt, bytes_WriteTo, bytes_Copy, bytes_Unwrap; kp.
Qed.

Lemma keeps_seeker_readAt o c d cur rs x p off (Q : ph -> option rdres -> Prop) :
  (forall r, sc_s x = Some r -> r ∈ rs) -> (forall y, Q (PC o c d cur rs) y) -> keeps rd (PC o c d cur rs) (seeker_readAt x p off) Q.
Proof. intros Hr HQ. unfold seeker_readAt. kp. Qed.
Lemma keeps_readerAt_readAt o c d cur rs x p off (Q : ph -> option rdres -> Prop) :
  (forall r, rc_at x = Some r -> r ∈ rs) -> (forall y, Q (PC o c d cur rs) y) -> keeps rd (PC o c d cur rs) (readerAt_readAt x p off) Q.
Proof. intros Hr HQ. unfold readerAt_readAt. kp. Qed.

Ltac kp_end :=
  cbn in *; subst;
  repeat match goal with H : ?x = false -> _ <> None, H' : ?x = false |- _ => specialize (H H') end;
  try congruence; try done; try tauto;
  match goal with
  | |- _ ∈ _ => repeat match goal with H : ?o = Some _ |- context [option_list ?o] => rewrite H end; set_solver
  | |- exists _, _ => eexists; (split; [reflexivity|]); first [done | split; [set_solver|set_solver]]
  | |- _ \/ _ => set_solver
  | |- bool_decide _ = true => apply bool_decide_eq_true; set_solver
  end.
Lemma keeps_seeker fuel i f x : for_op i f -> keeps rd P0 (method fuel (BSeeker x) i f) (stops rd).
Proof.
  intros [Hhd Hbr]. destruct f; cbn [method]; unfold seeker_BytesRemaining, seeker_Read, seeker_Close, seeker_Seek, seeker_ReadAt, seeker_Copy, seeker_Unwrap,
    seeker_ref, seeker_unref, seekerCommon_BytesRemaining;
  repeat first [apply keeps_br | apply keeps_ldSeekerC | apply keeps_seeker_readAt | kp_step]; kp_end.
Qed.
Lemma keeps_readerAt fuel i f x : for_op i f -> keeps rd P0 (method fuel (BReaderAt x) i f) (stops rd).
Proof.
  intros [Hhd Hbr]. destruct f; cbn [method]; unfold readerAt_BytesRemaining, readerAt_Read, readerAt_Close, readerAt_Seek, readerAt_ReadAt, readerAt_Copy, readerAt_Unwrap,
    readerAt_ref, readerAt_unref, readerAtCommon_BytesRemaining;
  repeat first [apply keeps_ldReaderAtC | apply keeps_readerAt_readAt | kp_step]; kp_end.
Qed.

(** Inside common.mu of a buffered Body nobody comes or goes in what follows. *)
Definition inside o c d (cm : bufferedCommon) (s : ph) : Prop :=
  exists cm' rs, s = PC o c d (Some (CBuffered cm')) rs /\ bc_bodies cm' = bc_bodies cm.
Lemma inside_here o c d cm rs : inside o c d cm (PC o c d (Some (CBuffered cm)) rs).
Proof. eexists _, _. done. Qed.
Lemma inside_trans o c d cm1 cm2 s : bc_bodies cm2 = bc_bodies cm1 -> inside o c d cm2 s -> inside o c d cm1 s.
Proof. intros H (cm' & rs & -> & H'). eexists _, _. split; [done|]. congruence. Qed.

Lemma keeps_ldB_in {A} (Q : ph -> option A -> Prop) o c d cur rs j (k : bufferedBody -> prog A) :
  ok rd (PC o c d cur rs) (LoadB j) -> (forall b, keeps rd (PC o c d cur rs) (k b) Q) -> Q (PC o c d cur rs) None ->
  keeps rd (PC o c d cur rs) (bind (ldBuffered j) k) Q.
Proof. intros H1 H2 H3. apply keeps_bind. unfold ldBuffered. apply keeps_bind. apply keeps_perform; [done..|]. intros b _. cbn. destruct b; cbn; auto. Qed.
Lemma keeps_ldC_in {A} (Q : ph -> option A -> Prop) o c d cm rs (k : bufferedCommon -> prog A) :
  keeps rd (PC o c d (Some (CBuffered cm)) (readers_of (CBuffered cm) ++ rs)) (k cm) Q ->
  keeps rd (PC o c d (Some (CBuffered cm)) rs) (bind (ldBufferedC c) k) Q.
Proof. intros H. apply keeps_bind. cbn. split; [done|]. split; [done|]. intros x ->. done. Qed.
Lemma keeps_stC_in {A} (Q : ph -> option A -> Prop) o c d cm cm' rs (k : unit -> prog A) :
  (forall j, j ∈ default [] (bc_bodies cm') -> d = Some (j, KBuffered) \/ j ∈ default [] (bc_bodies cm)) -> (bc_r cm' = bc_r cm \/ bc_r cm' = None) ->
  keeps rd (PC o c d (Some (CBuffered cm')) rs) (k tt) Q ->
  keeps rd (PC o c d (Some (CBuffered cm)) rs) (bind (perform (StoreC c (CBuffered cm'))) k) Q.
Proof.
  intros H1 H2 H3. apply keeps_bind. apply keeps_perform.
  - split; [done|]. eexists. split; [done|]. split; [done|]. cbn. destruct H2 as [-> | ->]; [done|]. cbn. set_solver.
  - done.
  - intros []. done.
Qed.
Lemma keeps_stC_end (Q : ph -> option unit -> Prop) o c d cm cm' rs :
  (forall j, j ∈ default [] (bc_bodies cm') -> d = Some (j, KBuffered) \/ j ∈ default [] (bc_bodies cm)) -> (bc_r cm' = bc_r cm \/ bc_r cm' = None) ->
  Q (PC o c d (Some (CBuffered cm')) rs) (Some tt) ->
  keeps rd (PC o c d (Some (CBuffered cm)) rs) (perform (StoreC c (CBuffered cm'))) Q.
Proof.
  intros H1 H2 H3. apply keeps_perform.
  - split; [done|]. eexists. split; [done|]. split; [done|]. cbn. destruct H2 as [-> | ->]; [done|]. cbn. set_solver.
  - done.
  - intros []. done.
Qed.

Lemma keeps_updateStart_loop (Q : ph -> option (Z * Z) -> Prop) o c d cm rs : forall l b n,
  (forall j, j ∈ l -> j ∈ default [] (bc_bodies cm)) -> (forall y, Q (PC o c d (Some (CBuffered cm)) rs) y) ->
  keeps rd (PC o c d (Some (CBuffered cm)) rs) (updateStart_loop l b n) Q.
Proof.
  induction l as [|j l IH]; intros b n Hl HQ; cbn [updateStart_loop]; [by apply keeps_ret|].
  apply keeps_ldB_in; [right; right; eexists; split; [done|]; apply Hl; left| |done].
  intros x. destruct (_ || _); apply IH; try done; intros; apply Hl; by right.
Qed.
Lemma keeps_updateStart (Q : ph -> option unit -> Prop) o c d cm rs :
  (forall s y, inside o c d cm s -> Q s y) -> keeps rd (PC o c d (Some (CBuffered cm)) rs) (buffered_updateStart c) Q.
Proof.
  intros HQ. unfold buffered_updateStart. apply keeps_ldC_in. apply keeps_bind. apply keeps_updateStart_loop; [done|].
  assert (Hn : forall rs, Q (PC o c d (Some (CBuffered cm)) rs) None) by (intros; apply HQ, inside_here).
  intros [[b n]|]; [|done]. cbv zeta.
  apply keeps_bind, keeps_assert; intros _; [|done]. apply keeps_bind, keeps_assert; intros _; [|done].
  apply keeps_bind, keeps_of_option; intros; [|done]. apply keeps_stC_end; [by right|by left|]. apply HQ. eexists _, _. done.
Qed.
Lemma keeps_drop (Q : ph -> option unit -> Prop) o c d cm rs :
  (forall s y, inside o c d cm s -> Q s y) -> keeps rd (PC o c d (Some (CBuffered cm)) rs) (buffered_drop c) Q.
Proof.
  intros HQ. unfold buffered_drop. apply keeps_ldC_in. cbv zeta. apply keeps_stC_in; [by right|by left|].
  destruct (_ <=? 0).
  - apply keeps_updateStart. intros s y Hs. apply HQ. by eapply inside_trans; [|exact Hs].
  - apply keeps_ret. apply HQ. eexists _, _. done.
Qed.
Lemma keeps_advance (Q : ph -> option unit -> Prop) o c d cm rs a b :
  (forall s y, inside o c d cm s -> Q s y) -> keeps rd (PC o c d (Some (CBuffered cm)) rs) (buffered_advance c a b) Q.
Proof.
  intros HQ. unfold buffered_advance. apply keeps_ldC_in. cbv zeta.
  assert (Hn : forall rs y, Q (PC o c d (Some (CBuffered cm)) rs) y) by (intros; apply HQ, inside_here).
  do 3 (apply keeps_bind, keeps_assert; intros _; [|done]).
  destruct (_ && _); [by apply keeps_drop|by apply keeps_ret].
Qed.
Lemma keeps_fill (Q : ph -> option Z -> Prop) o c d : forall fuel cm rs bufNew bufLen n bb eb,
  (forall s y, inside o c d cm s -> Q s y) -> keeps rd (PC o c d (Some (CBuffered cm)) rs) (buffered_fill fuel c bufNew bufLen n bb eb) Q.
Proof.
  induction fuel as [|fuel IH]; intros cm rs bufNew bufLen n bb eb HQ;
    (assert (Hn : forall rs y, Q (PC o c d (Some (CBuffered cm)) rs) y) by (intros; apply HQ, inside_here));
    cbn [buffered_fill]; (destruct (n >? 0); [|by apply keeps_ret]); [done|].
  cbv zeta. apply keeps_ldC_in. apply keeps_bind, keeps_of_option; [|done]. intros r Hr.
  apply keeps_bind, keeps_of_option; [|done]. intros buf _. apply keeps_bind, keeps_perform; [|done|].
  { cbn. rewrite Hr. set_solver. }
  intros [[m buf'] err] _. cbn [nx].
  apply keeps_bind, keeps_assert; intros _; [|done]. apply keeps_bind, keeps_assert; intros _; [|done].
  apply keeps_bind, keeps_of_option; intros; [|done]. destruct err.
  - apply keeps_stC_in; [by right|by left|]. apply keeps_ret, HQ. eexists _, _. done.
  - apply keeps_stC_in; [by right|by left|]. apply IH. intros s y Hs. apply HQ. by eapply inside_trans; [|exact Hs].
Qed.
Lemma keeps_fetch (Q : ph -> option Z -> Prop) fuel o c d cm rs bb eb eo :
  (forall s y, inside o c d cm s -> Q s y) -> keeps rd (PC o c d (Some (CBuffered cm)) rs) (buffered_fetch fuel c bb eb eo) Q.
Proof.
  intros HQ. unfold buffered_fetch. apply keeps_ldC_in.
  assert (Hn : forall rs y, Q (PC o c d (Some (CBuffered cm)) rs) y) by (intros; apply HQ, inside_here).
  match goal with |- keeps _ _ (if ?b then _ else _) _ => destruct b end; [|by apply keeps_ret].
  cbv zeta. apply keeps_bind.
  match goal with |- keeps _ _ _ ?P => assert (HP : forall y rs, P (PC o c d (Some (CBuffered cm)) rs) y) end.
  2:{ match goal with |- keeps _ _ _ ?P => revert HP; generalize P end. intros P HP. destruct (_ >=? 0); [apply keeps_bind, keeps_assert; intros _; [destruct (_ >=? _)|]|]; try apply keeps_ret; apply HP. }
  intros [[ntr eof]|] rs'; [|done].
  destruct (_ <? 0); [by apply keeps_panic|].
  do 3 (apply keeps_bind, keeps_of_option; [intros ? _|done]).
  apply keeps_stC_in; [by right|by left|]. apply keeps_bind, keeps_fill.
  intros s y (cm' & rs2 & -> & Hb). cbn in Hb.
  assert (HQ' : forall y, Q (PC o c d (Some (CBuffered cm')) rs2) y) by (intros; apply HQ; eexists _, _; done).
  destruct y as [eb'|]; [|done]. apply keeps_ldC_in. apply keeps_bind.
  destruct (_ && _).
  - apply keeps_stC_end; [by right|by left|]. apply keeps_ret, HQ. eexists _, _. done.
  - apply keeps_ret, keeps_ret, HQ. eexists _, _. done.
Qed.

Lemma in_set_add k (m : list nat) j : j ∈ set_add k m -> j = k \/ j ∈ m.
Proof. unfold set_add. destruct (decide (k ∈ m)); set_solver. Qed.
Lemma not_in_set_del k (m : option (list nat)) : k ∉ default [] (option_map (set_del k) m).
Proof. destruct m; cbn; [|set_solver]. unfold set_del. rewrite elem_of_list_filter. naive_solver. Qed.
Ltac bf_step :=
  match goal with
  | |- keeps _ (PC _ _ _ (Some (CBuffered _)) _) (bind (ldBufferedC _) _) _ => apply keeps_ldC_in
  | |- keeps _ (PC _ _ _ _ _) (bind (ldBuffered _) _) _ => apply keeps_ldB_in
  | |- keeps _ (PC _ _ _ _ _) (bind (perform (StoreC _ _)) _) _ => apply keeps_stC_in
  | |- keeps _ (PC _ _ _ _ _) (perform (StoreC _ _)) _ => apply keeps_stC_end
  | |- keeps _ _ (buffered_fetch _ _ _ _ _) _ => apply keeps_fetch; intros ? ? (? & ? & -> & ?)
  | |- keeps _ _ (buffered_drop _) _ => apply keeps_drop; intros ? ? (? & ? & -> & ?)
  | |- keeps _ _ (buffered_advance _ _ _) _ => apply keeps_advance; intros ? ? (? & ? & -> & ?)
  | |- keeps _ _ (ldBufferedC _) _ => apply keeps_ldBufferedC
  | |- _ => kp_step
  end.
Lemma keeps_buffered fuel i f x : for_op i f -> keeps rd P0 (method fuel (BBuffered x) i f) (stops rd).
Proof.
  intros [Hhd Hbr]. destruct f; cbn [method]; unfold buffered_BytesRemaining, buffered_Read, buffered_Close, buffered_Copy, buffered_Unwrap, buffered_ref, buffered_unref;
  repeat bf_step; try (kp_end; fail).
  - eexists. split; [done|]. split; [|done]. cbn. intros j Hj. right. destruct (bc_bodies x1); cbn in *; [|done]. by apply elem_of_list_filter in Hj as [_ ?].
  - apply bool_decide_eq_true. cbn in *. match goal with H : bc_bodies _ = option_map _ _ |- _ => rewrite H end. apply not_in_set_del.
  - apply bool_decide_eq_true. apply not_in_set_del.
  - eexists. split; [done|]. split; [|done]. cbn. intros j Hj. match goal with H : bc_bodies _ = Some _ |- _ => rewrite H end. cbn.
    apply in_set_add in Hj as [->|?]; auto.
Qed.

Theorem keeps_method fuel b i f : for_op i f -> keeps rd P0 (method fuel b i f) (stops rd).
Proof. intros H. destruct b; try (by apply keeps_seeker || apply keeps_readerAt || apply keeps_buffered); (eapply keeps_mem; [done| |reflexivity]; cbn; auto). Qed.

(** ** The constructors *)

Lemma keeps_From r len (Q : ph -> option (nat + error) -> Prop) :
  p_rd rd = Some r -> p_hd rd = None -> (forall s y, idle s -> (forall j, y = Some (inl j) -> j = closedSingleton \/ fr s = Some j) -> Q s y) ->
  keeps rd P0 (FromReaderAndLength r len) Q.
Proof.
  intros Hrd Hhd HQ. unfold FromReaderAndLength, readerAt_ref, seeker_ref, buffered_ref.
  repeat first [apply keeps_ldSeekerC | apply keeps_ldReaderAtC | bf_step]; try (by cbn; eauto); try (by cbn; set_solver).
  all: try (kp_end; fail).
  all: try (apply HQ; [exact I|]; let H := fresh in intros ? H; first [discriminate H | injection H as <-; first [left; reflexivity | right; reflexivity]]).
  all: eexists; (split; [done|]); (split; [|done]); cbn; intros j Hj; match goal with H : bc_bodies _ = Some _ |- _ => rewrite H end; cbn;
    apply in_set_add in Hj as [->|?]; auto.
Qed.

End Shapes.

Definition reader_made (c : cmd) : option rid := match c with NewReader r | NewReaderLen r _ => Some r | _ => None end.
Definition par_of (c : cmd) : par :=
  {| p_rd := reader_made c; p_hd := match c with Call i _ => Some i | _ => None end; p_known := uses c;
     p_br := match c with Call _ BytesRemaining => true | _ => false end |}.

Theorem keeps_cmd {W} fuel (h : heap W) c : keeps (par_of c) P0 (cmd_prog fuel h c) (stops (par_of c)).
Proof.
  assert (Hp : forall e, keeps (par_of c) P0 (Panic e) (stops (par_of c))) by (by split).
  destruct c; cbn [cmd_prog].
  - destruct (h_b h !! i); [by apply keeps_method|done].
  - split; [done|]. intros j e [= <- <-]. by do 2 left.
  - unfold Empty. kp.
  - unfold FromBytes, Empty. kp.
  - unfold FromString, Empty. kp.
  - unfold rfrom. apply keeps_bind, keeps_From; [done..|]. intros s [[]|] Hs Hy; (split; [done|]); intros ? ? [= <- <-]. left. by apply Hy.
  - unfold rfrom. apply keeps_bind, keeps_From; [done..|]. intros s [[]|] Hs Hy; (split; [done|]); intros ? ? [= <- <-]. left. by apply Hy.
  - destruct (h_b h !! b); [|done]. split; [done|]. intros j e [= <- <-]. right. cbn. set_solver.
Qed.
