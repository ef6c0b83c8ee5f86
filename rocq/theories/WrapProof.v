(** WrapProof.v — proofs about the wrapper tables. *)
From Coq Require Import String Ascii FMapPositive.
From Verif Require Import Base WrapModel WrapTab WrapSpec.
Local Open Scope string_scope.
Local Open Scope list_scope.
Local Open Scope Z_scope.

(** ** Strings as positives *)
Definition bit (b : bool) (p : positive) : positive := if b then xI p else xO p.
Fixpoint enc (s : string) : positive :=
  match s with
  | EmptyString => xH
  | String (Ascii a b c d e f g h) s' =>
      bit a (bit b (bit c (bit d (bit e (bit f (bit g (bit h (enc s'))))))))
  end.

Lemma bit_inj b1 b2 p1 p2 : bit b1 p1 = bit b2 p2 -> b1 = b2 /\ p1 = p2.
Proof. destruct b1, b2; simpl; intros H; inversion H; auto. Qed.

Lemma enc_inj s1 : forall s2, enc s1 = enc s2 -> s1 = s2.
Proof.
  induction s1 as [|[a b c d e f g h] s1 IH]; intros [|[a' b' c' d' e' f' g' h'] s2]; cbn [enc]; intros H.
  - reflexivity.
  - destruct a'; discriminate.
  - destruct a; discriminate.
  - repeat (apply bit_inj in H; destruct H as [? H]). subst. f_equal. auto.
Qed.

(** ** Distinct names by one pass over a map *)
Fixpoint distinct (l : list string) (seen : PositiveMap.t unit) : bool :=
  match l with
  | [] => true
  | s :: l' =>
      match PositiveMap.find (enc s) seen with
      | Some _ => false
      | None => distinct l' (PositiveMap.add (enc s) tt seen)
      end
  end.

Lemma distinct_ok l : forall seen, distinct l seen = true ->
  NoDup l /\ forall s, In s l -> PositiveMap.find (enc s) seen = None.
Proof.
  induction l as [|s l IH]; intros seen H; simpl in H.
  - split; [constructor|intros s []].
  - destruct (PositiveMap.find (enc s) seen) eqn:E; [discriminate|].
    destruct (IH _ H) as [Hn Hf]. split.
    + constructor; [|exact Hn]. intros Hin. specialize (Hf s Hin).
      rewrite PositiveMap.gss in Hf. discriminate.
    + intros s' [<-|Hin]; [exact E|]. specialize (Hf s' Hin).
      destruct (Pos.eq_dec (enc s') (enc s)) as [He|He].
      * rewrite He, PositiveMap.gss in Hf. discriminate.
      * rewrite PositiveMap.gso in Hf by exact He. exact Hf.
Qed.

Lemma names_distinct : NoDup (map fname program).
Proof.
  refine (proj1 (distinct_ok _ (PositiveMap.empty unit) _)).
  vm_cast_no_check (eq_refl true).
Qed.

Lemma find_in (l : list func) f : NoDup (map fname l) -> In f l -> find_fun l (fname f) = Some f.
Proof.
  unfold find_fun. induction l as [|g l IH]; intros Hn Hin; [destruct Hin|].
  simpl. inversion Hn as [|x xs Hx Hns]; subst.
  destruct Hin as [->|Hin].
  - rewrite String.eqb_refl. reflexivity.
  - destruct (String.eqb_spec (fname f) (fname g)) as [E|E].
    + exfalso. apply Hx. rewrite <- E. apply in_map. exact Hin.
    + apply IH; assumption.
Qed.

(** ** Every wrapper's name starts with c, no modern name does *)
Definition first_c (s : string) : bool :=
  match s with String a _ => Ascii.eqb a "c" | EmptyString => false end.

Lemma program_c f : In f program -> first_c (fname f) = true.
Proof.
  assert (H : forallb (fun f => first_c (fname f)) program = true) by (vm_cast_no_check (eq_refl true)).
  rewrite forallb_forall in H. apply H.
Qed.

Lemma not_wrapper nm : first_c nm = false -> find_fun program nm = None.
Proof.
  intros H. unfold find_fun. destruct (find _ program) as [f|] eqn:E; [|reflexivity].
  apply find_some in E. destruct E as [Hin He]. apply String.eqb_eq in He.
  pose proof (program_c f Hin) as Hc. rewrite <- He in Hc. congruence.
Qed.

Lemma in_program k n f : In (k, n) instances -> In f (expand k n) -> In f program.
Proof.
  intros Hi Hf. unfold program. apply in_or_app. left. apply in_flat_map.
  exists (k, n). split; assumption.
Qed.

(** One step of [call]. *)
Lemma call_wrapper fuel w lib f vs m s s' args :
  In f program ->
  bind_params (fparams f) vs = Some s ->
  bind_locals m (flocals f) s = Some s' ->
  aevals m s' (fargs f) = Some args ->
  call (Datatypes.S fuel) w program lib (fname f) vs m =
  seen_as w (fret f) (call fuel w program lib (fcallee f) args m).
Proof.
  intros Hin H1 H2 H3. cbn [call]. rewrite (find_in program f names_distinct Hin).
  rewrite H1. cbn [bind]. rewrite H2. cbn [bind]. rewrite H3. cbn [bind].
  destruct (call fuel w program lib (fcallee f) args m) as [[m' r]|]; reflexivity.
Qed.

Lemma call_lib fuel w lib nm vs m : first_c nm = false ->
  call fuel w program lib nm vs m = lib nm vs m.
Proof. intros H. destruct fuel; cbn [call]; rewrite (not_wrapper nm H); reflexivity. Qed.

(** ** The names of the instances and the modern entry points *)
Definition modern_map : PositiveMap.t shape :=
  fold_right (fun ns t => PositiveMap.add (enc (fst ns)) (snd ns) t) (PositiveMap.empty shape) modern.

Definition shape_eqb (a b : shape) : bool :=
  match a, b with Sreal, Sreal | Scplx, Scplx | Sopt, Sopt => true | _, _ => false end.

Lemma modern_find l nm s :
  PositiveMap.find (enc nm)
    (fold_right (fun ns t => PositiveMap.add (enc (fst ns)) (snd ns) t) (PositiveMap.empty shape) l) = Some s ->
  In (nm, s) l.
Proof.
  induction l as [|[n s'] l IH]; cbn [fold_right fst snd]; intros H.
  - rewrite PositiveMap.gempty in H. discriminate.
  - destruct (Pos.eq_dec (enc nm) (enc n)) as [E|E].
    + rewrite E, PositiveMap.gss in H. injection H as <-. apply enc_inj in E. subst. left; reflexivity.
    + rewrite PositiveMap.gso in H by exact E. right. auto.
Qed.

Definition has (nm : string) (s : shape) : bool :=
  match PositiveMap.find (enc nm) modern_map with Some s' => shape_eqb s' s | None => false end.

Lemma has_in nm s : has nm s = true -> In (nm, s) modern.
Proof.
  unfold has. destruct (PositiveMap.find (enc nm) modern_map) as [s'|] eqn:E; [|discriminate].
  intros H. assert (s' = s) as -> by (destruct s', s; simpl in H; congruence).
  apply modern_find. exact E.
Qed.

(** Everything the theorems need to know about a (macro, NAME) pair. *)
Definition inst_ok (kn : macro * string) : bool :=
  let '(k, n) := kn in
  match k with
  | MC | MF => negb (first_c n) && negb (String.eqb n "") &&
      has (modern_name n Cart) Sreal && has (modern_name n Sph) Sreal &&
      has (modern_name n Spinor) Scplx && has (modern_optimizer n) Sopt
  | MC1E | MF1E => negb (first_c n) && negb (String.eqb n "") &&
      has (modern_name n Cart) Sreal && has (modern_name n Sph) Sreal && has (modern_name n Spinor) Scplx
  | MF12 => negb (first_c n) && negb (String.eqb n "") &&
      has (modern_name n Sph) Sreal && has (modern_optimizer n) Sopt
  | MBREIT => has (("int2e_breit_" ++ n ++ "_spinor")%string) Scplx
  end.

Lemma instances_ok kn : In kn instances -> inst_ok kn = true.
Proof.
  assert (H : forallb inst_ok instances = true) by (vm_cast_no_check (eq_refl true)).
  rewrite forallb_forall in H. apply H.
Qed.

Lemma first_c_app n s : first_c n = false -> n <> ""%string -> first_c (n ++ s) = false.
Proof. destruct n; simpl; congruence. Qed.

Lemma inst_not_c k n : In (k, n) instances -> k <> MBREIT -> first_c n = false /\ n <> ""%string.
Proof.
  intros H Hk. apply instances_ok in H. unfold inst_ok in H.
  destruct k; try congruence; rewrite !andb_true_iff, !negb_true_iff, String.eqb_neq in H; tauto.
Qed.

Lemma to_fint_id w z : 1 <= w -> fits w z -> to_fint w z = z.
Proof.
  unfold fits, to_fint. intros Hw H.
  assert (E : 2 ^ w = 2 ^ (w - 1) + 2 ^ (w - 1)).
  { replace w with (1 + (w - 1)) at 1 by lia. rewrite Z.pow_add_r by lia. lia. }
  rewrite Z.mod_small by lia. lia.
Qed.

(** ** The families *)
Definition nofun : func := mkfunc "" Tvoid [] [] "" [].

Lemma app_empty s : (s ++ "")%string = s.
Proof. induction s; simpl; congruence. Qed.

Definition eval_args (f : func) (vs : list val) (m : memory) : option (list val) :=
  s <- bind_params (fparams f) vs ;; s' <- bind_locals m (flocals f) s ;; aevals m s' (fargs f).

Lemma pass_through k N i w lib fuel m vs args (L := expand k N) (f := nth i L nofun) :
  In (k, N) instances ->
  (i < length L)%nat ->
  first_c (fcallee f) = false ->
  eval_args f vs m = Some args ->
  call (Datatypes.S fuel) w program lib (fname f) vs m = seen_as w (fret f) (lib (fcallee f) args m).
Proof.
  intros Hin Hi Hc H. unfold eval_args in H.
  destruct (bind_params (fparams f) vs) as [s|] eqn:H1; [|discriminate].
  cbn [bind] in H. destruct (bind_locals m (flocals f) s) as [s'|] eqn:H2; [|discriminate].
  cbn [bind] in H.
  rewrite (call_wrapper fuel w lib f vs m s s' args); try assumption.
  - rewrite call_lib by exact Hc. reflexivity.
  - apply (in_program k N); [exact Hin|]. apply nth_In. exact Hi.
Qed.

Ltac pass k N i Hin Hc Hn :=
  lazymatch goal with
  | |- call (Datatypes.S ?fuel) ?w program ?lib _ ?vs ?m = seen_as _ _ (?lib _ ?args _) =>
      refine (pass_through k N i w lib fuel m vs args Hin _ _ _);
      [ cbn; lia | apply first_c_app; assumption | try reflexivity ]
  end.

Section Fam.
Context (w : Z) (lib : library) (fuel : nat) (m : memory).
Let run := call (Datatypes.S fuel) w program lib.

Lemma legacy_ok N r out shls atm natm bas nbas env opt :
  In (MC, N) instances -> is_ptr out ->
  run (legacy_name N r) [out; shls; atm; natm; bas; nbas; env; opt] m
  = seen_as w Tfint (lib (modern_name N r) (integral_args out VNull shls atm natm bas nbas env opt VNull) m).
Proof.
  intros Hin Ho. destruct (inst_not_c _ _ Hin) as [Hc Hn]; [discriminate|]. subst run.
  destruct r; unfold legacy_name; [| |rewrite app_empty].
  - pass MC N 0%nat Hin Hc Hn.
  - pass MC N 2%nat Hin Hc Hn.
  - pass MC N 4%nat Hin Hc Hn. destruct Ho as [->|[a ->]]; reflexivity.
Qed.

Lemma legacy_optimizer_ok N r opt atm natm bas nbas env :
  In (MC, N) instances ->
  run (legacy_optimizer N r) [opt; atm; natm; bas; nbas; env] m
  = seen_as w Tvoid (lib (modern_optimizer N) [opt; atm; natm; bas; nbas; env] m).
Proof.
  intros Hin. destruct (inst_not_c _ _ Hin) as [Hc Hn]; [discriminate|]. subst run.
  destruct r; unfold legacy_optimizer.
  - pass MC N 1%nat Hin Hc Hn.
  - pass MC N 3%nat Hin Hc Hn.
  - pass MC N 5%nat Hin Hc Hn.
Qed.

Lemma legacy1e_ok N r out shls atm natm bas nbas env :
  In (MC1E, N) instances -> is_ptr out ->
  run (legacy_name N r) [out; shls; atm; natm; bas; nbas; env] m
  = seen_as w Tfint (lib (modern_name N r) (integral_args out VNull shls atm natm bas nbas env VNull VNull) m).
Proof.
  intros Hin Ho. destruct (inst_not_c _ _ Hin) as [Hc Hn]; [discriminate|]. subst run.
  destruct r; unfold legacy_name; [| |rewrite app_empty].
  - pass MC1E N 0%nat Hin Hc Hn.
  - pass MC1E N 1%nat Hin Hc Hn.
  - pass MC1E N 2%nat Hin Hc Hn. destruct Ho as [->|[a ->]]; reflexivity.
Qed.

Lemma f12_ok N out shls atm natm bas nbas env opt :
  In (MF12, N) instances ->
  run (legacy_name N Sph) [out; shls; atm; natm; bas; nbas; env; opt] m
  = seen_as w Tfint (lib (modern_name N Sph) (integral_args out VNull shls atm natm bas nbas env opt VNull) m).
Proof.
  intros Hin. destruct (inst_not_c _ _ Hin) as [Hc Hn]; [discriminate|]. subst run.
  pass MF12 N 0%nat Hin Hc Hn.
Qed.

Lemma f12_optimizer_ok N opt atm natm bas nbas env :
  In (MF12, N) instances ->
  run (legacy_optimizer N Sph) [opt; atm; natm; bas; nbas; env] m
  = seen_as w Tvoid (lib (modern_optimizer N) [opt; atm; natm; bas; nbas; env] m).
Proof.
  intros Hin. destruct (inst_not_c _ _ Hin) as [Hc Hn]; [discriminate|]. subst run.
  pass MF12 N 1%nat Hin Hc Hn.
Qed.

Lemma breit_ok X out shls atm natm bas nbas env opt :
  In (MBREIT, X) instances ->
  run ("cint2e_breit_" ++ X ++ "_spinor")%string [out; shls; atm; natm; bas; nbas; env; opt] m
  = seen_as w Tfint (lib ("int2e_breit_" ++ X ++ "_spinor")%string (integral_args out VNull shls atm natm bas nbas env opt VNull) m).
Proof.
  intros Hin. subst run.
  lazymatch goal with
  | |- call (Datatypes.S ?fuel) ?w program ?lib _ ?vs ?m = seen_as _ _ (?lib _ ?args _) =>
      refine (pass_through MBREIT X 0%nat w lib fuel m vs args Hin _ _ _)
  end; [ cbn; lia | reflexivity | reflexivity ].
Qed.

Lemma fortran_ok N r out shls atm pn bas pb env po natm nbas opt :
  In (MF, N) instances -> is_ptr out -> po <> 0 ->
  m pn = Some natm -> m pb = Some nbas -> m po = Some opt ->
  run (fortran_name N r) [out; shls; atm; VAddr pn; bas; VAddr pb; env; VInt po] m
  = seen_as w Tfint (lib (modern_name N r) (integral_args out VNull shls atm natm bas nbas env opt VNull) m).
Proof.
  intros Hin Ho Hpo H1 H2 H3. destruct (inst_not_c _ _ Hin) as [Hc Hn]; [discriminate|]. subst run.
  assert (E : cast_ptr (VInt po) = Some (VAddr po)).
  { cbn. destruct (Z.eqb_spec po 0); [contradiction|reflexivity]. }
  destruct r; unfold fortran_name.
  - pass MF N 2%nat Hin Hc Hn.
    unfold eval_args. cbn -[cast_ptr]. rewrite E. cbn. rewrite H1. cbn. rewrite H2. cbn. rewrite H3. reflexivity.
  - pass MF N 0%nat Hin Hc Hn.
    unfold eval_args. cbn -[cast_ptr]. rewrite E. cbn. rewrite H1. cbn. rewrite H2. cbn. rewrite H3. reflexivity.
  - pass MF N 4%nat Hin Hc Hn.
    unfold eval_args. cbn -[cast_ptr]. rewrite E. cbn. destruct Ho as [->|[a ->]]; cbn; rewrite H1; cbn; rewrite H2; cbn; rewrite H3; reflexivity.
Qed.

Lemma fortran_optimizer_ok N r atm pn bas pb env po natm nbas :
  In (MF, N) instances -> po <> 0 ->
  m pn = Some natm -> m pb = Some nbas ->
  run (fortran_optimizer N r) [match r with Cart => VAddr po | _ => VInt po end; atm; VAddr pn; bas; VAddr pb; env] m
  = seen_as w Tvoid (lib (modern_optimizer N) [VAddr po; atm; natm; bas; nbas; env] m).
Proof.
  intros Hin Hpo H1 H2. destruct (inst_not_c _ _ Hin) as [Hc Hn]; [discriminate|]. subst run.
  assert (E : cast_ptr (VInt po) = Some (VAddr po)).
  { cbn. destruct (Z.eqb_spec po 0); [contradiction|reflexivity]. }
  destruct r; unfold fortran_optimizer.
  - pass MF N 3%nat Hin Hc Hn.
    cbn. rewrite H1. cbn. rewrite H2. reflexivity.
  - pass MF N 1%nat Hin Hc Hn.
    unfold eval_args. cbn -[cast_ptr]. rewrite E. cbn. rewrite H1. cbn. rewrite H2. reflexivity.
  - pass MF N 5%nat Hin Hc Hn.
    unfold eval_args. cbn -[cast_ptr]. rewrite E. cbn. rewrite H1. cbn. rewrite H2. reflexivity.
Qed.

Lemma fortran1e_ok N r out shls atm pn bas pb env natm nbas :
  In (MF1E, N) instances -> is_ptr out ->
  m pn = Some natm -> m pb = Some nbas ->
  run (fortran_name N r) [out; shls; atm; VAddr pn; bas; VAddr pb; env] m
  = seen_as w Tfint (lib (modern_name N r) (integral_args out VNull shls atm natm bas nbas env VNull VNull) m).
Proof.
  intros Hin Ho H1 H2. destruct (inst_not_c _ _ Hin) as [Hc Hn]; [discriminate|]. subst run.
  destruct r; unfold fortran_name.
  - pass MF1E N 1%nat Hin Hc Hn.
    cbn. rewrite H1. cbn. rewrite H2. reflexivity.
  - pass MF1E N 0%nat Hin Hc Hn.
    cbn. rewrite H1. cbn. rewrite H2. reflexivity.
  - pass MF1E N 2%nat Hin Hc Hn.
    cbn. destruct Ho as [->|[a ->]]; cbn; rewrite H1; cbn; rewrite H2; reflexivity.
Qed.

(** *** src/c2f.c *)
Lemma c2f_ok i vs args (f := nth i c2f_functions nofun) :
  (i < length c2f_functions)%nat ->
  eval_args f vs m = Some args ->
  run (fname f) vs m = seen_as w (fret f) (call fuel w program lib (fcallee f) args m).
Proof.
  intros Hi H. unfold eval_args in H.
  destruct (bind_params (fparams f) vs) as [s|] eqn:H1; [|discriminate].
  cbn [bind] in H. destruct (bind_locals m (flocals f) s) as [s'|] eqn:H2; [|discriminate].
  cbn [bind] in H. subst run.
  apply call_wrapper with (s := s) (s' := s'); try assumption.
  unfold program. apply in_or_app. right. apply nth_In. exact Hi.
Qed.

Lemma c2f_call i nm c t vs args :
  (i < length c2f_functions)%nat ->
  fname (nth i c2f_functions nofun) = nm -> fcallee (nth i c2f_functions nofun) = c ->
  fret (nth i c2f_functions nofun) = t -> first_c c = false ->
  eval_args (nth i c2f_functions nofun) vs m = Some args ->
  run nm vs m = seen_as w t (lib c args m).
Proof.
  intros Hi H1 H2 H3 Hc He. rewrite <- H1, (c2f_ok i vs args Hi He), H2, H3, call_lib by exact Hc. reflexivity.
Qed.

Lemma c2f_sizes f c p id bas :
  In (f, c) [("cintlen_spinor_", "CINTlen_spinor");
             ("cintcgtos_cart_", "CINTcgto_cart"); ("cintcgto_cart_", "CINTcgto_cart");
             ("cintcgtos_spheric_", "CINTcgto_spheric"); ("cintcgto_spheric_", "CINTcgto_spheric");
             ("cintcgtos_spinor_", "CINTcgto_spinor"); ("cintcgto_spinor_", "CINTcgto_spinor")]%string ->
  m p = Some id ->
  run f [VAddr p; bas] m = seen_as w Tfint (lib c [id; bas] m).
Proof.
  intros H Hp. cbn [In] in H.
  destruct H as [H|[H|[H|[H|[H|[H|[H|[]]]]]]]]; injection H as <- <-;
  [ apply (c2f_call 0) | apply (c2f_call 1) | apply (c2f_call 2) | apply (c2f_call 3)
  | apply (c2f_call 4) | apply (c2f_call 5) | apply (c2f_call 6) ];
  try reflexivity; try (cbn; lia); unfold eval_args; cbn; rewrite Hp; reflexivity.
Qed.

Lemma c2f_totals f c p n bas :
  In (f, c) [("cinttot_pgto_spheric_", "CINTtot_pgto_spheric"); ("cinttot_pgto_spinor_", "CINTtot_pgto_spinor");
             ("cinttot_cgto_cart_", "CINTtot_cgto_cart"); ("cinttot_cgto_spheric_", "CINTtot_cgto_spheric");
             ("cinttot_cgto_spinor_", "CINTtot_cgto_spinor")]%string ->
  m p = Some n ->
  run f [bas; VAddr p] m = seen_as w Tfint (lib c [bas; n] m).
Proof.
  intros H Hp. cbn [In] in H.
  destruct H as [H|[H|[H|[H|[H|[]]]]]]; injection H as <- <-;
  [ apply (c2f_call 7) | apply (c2f_call 8) | apply (c2f_call 9) | apply (c2f_call 10) | apply (c2f_call 11) ];
  try reflexivity; try (cbn; lia); unfold eval_args; cbn; rewrite Hp; reflexivity.
Qed.

Lemma c2f_offsets f c p n loc bas :
  In (f, c) [("cintshells_cart_offset_", "CINTshells_cart_offset");
             ("cintshells_spheric_offset_", "CINTshells_spheric_offset");
             ("cintshells_spinor_offset_", "CINTshells_spinor_offset")]%string ->
  m p = Some n ->
  run f [loc; bas; VAddr p] m = seen_as w Tvoid (lib c [loc; bas; n] m).
Proof.
  intros H Hp. cbn [In] in H.
  destruct H as [H|[H|[H|[]]]]; injection H as <- <-;
  [ apply (c2f_call 12) | apply (c2f_call 13) | apply (c2f_call 14) ];
  try reflexivity; try (cbn; lia); unfold eval_args; cbn; rewrite Hp; reflexivity.
Qed.

Lemma c2f_norm pn pa n a : m pn = Some n -> m pa = Some a ->
  run "cintgto_norm_"%string [VAddr pn; VAddr pa] m = seen_as w Tdouble (lib "CINTgto_norm"%string [n; a] m).
Proof.
  intros H1 H2. apply (c2f_call 15); try reflexivity; try (cbn; lia).
  unfold eval_args; cbn; rewrite H1; cbn; rewrite H2; reflexivity.
Qed.

Lemma c2f_init opt atm pn bas pb env natm nbas : m pn = Some natm -> m pb = Some nbas ->
  run "cintinit_2e_optimizer_"%string [opt; atm; VAddr pn; bas; VAddr pb; env] m
  = seen_as w Tvoid (lib "CINTinit_2e_optimizer"%string [opt; atm; natm; bas; nbas; env] m).
Proof.
  intros H1 H2. apply (c2f_call 16); try reflexivity; try (cbn; lia).
  unfold eval_args; cbn; rewrite H1; cbn; rewrite H2; reflexivity.
Qed.

Lemma c2f_del opt :
  run "cintdel_2e_optimizer_"%string [opt] m = seen_as w Tvoid (lib "CINTdel_2e_optimizer"%string [opt] m).
Proof. apply (c2f_call 18); try reflexivity; cbn; lia. Qed.

Lemma c2f_nested i nm c vs args :
  (i < length c2f_functions)%nat ->
  fname (nth i c2f_functions nofun) = nm -> fcallee (nth i c2f_functions nofun) = c ->
  fret (nth i c2f_functions nofun) = Tvoid ->
  eval_args (nth i c2f_functions nofun) vs m = Some args ->
  run nm vs m = seen_as w Tvoid (call fuel w program lib c args m).
Proof. intros Hi H1 H2 H3 He. rewrite <- H1, (c2f_ok i vs args Hi He), H2, H3. reflexivity. Qed.
End Fam.

Lemma seen_void w r : seen_as w Tvoid (seen_as w Tvoid r) = seen_as w Tvoid r.
Proof. destruct r as [[m v]|]; reflexivity. Qed.

Lemma c2f_others w lib fuel m :
  (forall pn pa n a, m pn = Some n -> m pa = Some a ->
    call (Datatypes.S fuel) w program lib "cintgto_norm_"%string [VAddr pn; VAddr pa] m
    = seen_as w Tdouble (lib "CINTgto_norm"%string [n; a] m)) /\
  (forall f opt atm pn bas pb env natm nbas,
    (f = "cintinit_2e_optimizer_" \/ f = "cintinit_optimizer_")%string ->
    m pn = Some natm -> m pb = Some nbas ->
    call (Datatypes.S (Datatypes.S fuel)) w program lib f [opt; atm; VAddr pn; bas; VAddr pb; env] m
    = seen_as w Tvoid (lib "CINTinit_2e_optimizer"%string [opt; atm; natm; bas; nbas; env] m)) /\
  (forall f opt, (f = "cintdel_2e_optimizer_" \/ f = "cintdel_optimizer_")%string ->
    call (Datatypes.S (Datatypes.S fuel)) w program lib f [opt] m
    = seen_as w Tvoid (lib "CINTdel_2e_optimizer"%string [opt] m)).
Proof.
  split; [|split].
  - intros. apply c2f_norm; assumption.
  - intros f opt atm pn bas pb env natm nbas [->| ->] H1 H2; [apply c2f_init; assumption|].
    rewrite (c2f_nested w lib (Datatypes.S fuel) m 17 _ "cintinit_2e_optimizer_"%string _
       [opt; atm; VAddr pn; bas; VAddr pb; env]); try reflexivity; [|cbn; lia].
    rewrite (c2f_init w lib fuel m opt atm pn bas pb env natm nbas H1 H2). apply seen_void.
  - intros f opt [->| ->]; [apply c2f_del|].
    rewrite (c2f_nested w lib (Datatypes.S fuel) m 19 _ "cintdel_2e_optimizer_"%string _ [opt]);
      try reflexivity; [|cbn; lia].
    rewrite (c2f_del w lib fuel m opt). apply seen_void.
Qed.

(** ** Nothing else: every wrapper of the program belongs to one of the families *)
Lemma program_only f : In f program ->
  (exists k N, In (k, N) instances /\ In f (expand k N)) \/ In f c2f_functions.
Proof.
  unfold program. rewrite in_app_iff, in_flat_map. intros [[[k N] [H1 H2]]|H]; [left|right; exact H].
  exists k, N. split; assumption.
Qed.

(** ** Typing *)
Fixpoint ty_eqb (a b : ty) : bool :=
  match a, b with
  | Tvoid, Tvoid | Tdouble, Tdouble | Tcomplex, Tcomplex | Tfint, Tfint
  | Tcache, Tcache | Topt, Topt | Tsize, Tsize => true
  | Tptr a', Tptr b' => ty_eqb a' b'
  | _, _ => false
  end.

Lemma ty_eqb_eq a : forall b, ty_eqb a b = true -> a = b.
Proof. induction a; intros []; simpl; intros H; try congruence. f_equal. auto. Qed.

Definition arg_okb (f : func) (e : aexpr) (t : ty) : bool :=
  match e with
  | Anull => match t with Tptr _ => true | _ => false end
  | _ => match type_of f e with Some t' => ty_eqb t' t | None => false end
  end.

Lemma arg_okb_ok f e t : arg_okb f e t = true -> arg_fits f e t.
Proof.
  unfold arg_okb, arg_fits. destruct e.
  1,2,3: destruct (type_of f _); [|discriminate]; intros H; apply ty_eqb_eq in H; left; congruence.
  destruct t; try discriminate. intros _. right. split; [reflexivity|eexists; reflexivity].
Qed.

Fixpoint args_okb (f : func) (es : list aexpr) (ts : list (ty * string)) : bool :=
  match es, ts with
  | [], [] => true
  | e :: es', (t, _) :: ts' => arg_okb f e t && args_okb f es' ts'
  | _, _ => false
  end.

Lemma args_okb_ok f es : forall ts, args_okb f es ts = true -> Forall2 (fun e p => arg_fits f e (fst p)) es ts.
Proof.
  induction es as [|e es IH]; intros [|[t x] ts]; simpl; intros H; try discriminate; [constructor|].
  apply andb_true_iff in H. destruct H as [H1 H2]. constructor; [apply arg_okb_ok; exact H1|auto].
Qed.

Definition callee_sig (nm : string) : option (ty * list (ty * string)) :=
  match PositiveMap.find (enc nm) modern_map with
  | Some s => Some (proto_of s)
  | None => match find (fun p => String.eqb nm (fst p)) c2f_callees with
            | Some p => Some (snd p)
            | None => None
            end
  end.

Lemma callee_sig_ok nm s : callee_sig nm = Some s -> prototype nm s.
Proof.
  unfold callee_sig. destruct (PositiveMap.find (enc nm) modern_map) as [sh|] eqn:E.
  - intros H. injection H as <-. left. exists sh. split; [|reflexivity]. apply modern_find. exact E.
  - destruct (find _ c2f_callees) as [[n p]|] eqn:E2; [|discriminate].
    intros H. injection H as <-. apply find_some in E2. destruct E2 as [Hin He].
    apply String.eqb_eq in He. simpl in He. subst. right. exact Hin.
Qed.

Definition typed_okb (f : func) : bool :=
  match callee_sig (fcallee f) with Some s => args_okb f (fargs f) (snd s) | None => false end.

Lemma program_typed f : In f program ->
  exists s, prototype (fcallee f) s /\ Forall2 (fun e p => arg_fits f e (fst p)) (fargs f) (snd s).
Proof.
  intros Hin.
  assert (H : forallb typed_okb program = true) by (vm_cast_no_check (eq_refl true)).
  rewrite forallb_forall in H. specialize (H f Hin). unfold typed_okb in H.
  destruct (callee_sig (fcallee f)) as [s|] eqn:E; [|discriminate].
  exists s. split; [apply callee_sig_ok; exact E|apply args_okb_ok; exact H].
Qed.

Lemma modern_exists k N r : In (k, N) instances -> k <> MBREIT -> (k = MF12 -> r = Sph) ->
  In (modern_name N r, match r with Spinor => Scplx | _ => Sreal end) modern.
Proof.
  intros H Hk Hr. apply instances_ok in H. apply has_in.
  destruct k; try congruence; cbn [inst_ok] in H; rewrite !andb_true_iff in H;
    try (specialize (Hr eq_refl); subst r); try (destruct r); tauto.
Qed.

Lemma optimizer_exists k N : In (k, N) instances -> k = MC \/ k = MF \/ k = MF12 ->
  In (modern_optimizer N, Sopt) modern.
Proof.
  intros H Hk. apply instances_ok in H. apply has_in.
  destruct Hk as [->|[->| ->]]; cbn [inst_ok] in H; rewrite !andb_true_iff in H; tauto.
Qed.

Lemma program_families f : In f program ->
     (exists N, In (MC, N) instances /\ exists r, fname f = legacy_name N r \/ fname f = legacy_optimizer N r) \/
     (exists N, In (MC1E, N) instances /\ exists r, fname f = legacy_name N r) \/
     (exists N, In (MF12, N) instances /\ (fname f = legacy_name N Sph \/ fname f = legacy_optimizer N Sph)) \/
     (exists X, In (MBREIT, X) instances /\ fname f = ("cint2e_breit_" ++ X ++ "_spinor")%string) \/
     (exists N, In (MF, N) instances /\ exists r, fname f = fortran_name N r \/ fname f = fortran_optimizer N r) \/
     (exists N, In (MF1E, N) instances /\ exists r, fname f = fortran_name N r) \/
     In f c2f_functions.
Proof.
  intros H. destruct (program_only f H) as [(k & N & Hi & Hf)|Hc]; [|tauto].
  destruct k; cbn [expand ALL_CINT ALL_CINT1E ALL_CINT_FORTRAN_ ALL_CINT1E_FORTRAN_ ALL_CINT_F12 BREIT0 In] in Hf.
  - left. exists N. split; [exact Hi|].
    destruct Hf as [<-|[<-|[<-|[<-|[<-|[<-|[]]]]]]];
    [exists Cart; left|exists Cart; right|exists Sph; left|exists Sph; right|exists Spinor; left|exists Spinor; right];
    unfold legacy_name; rewrite ?app_empty; reflexivity.
  - right; left. exists N. split; [exact Hi|].
    destruct Hf as [<-|[<-|[<-|[]]]]; [exists Cart|exists Sph|exists Spinor];
    unfold legacy_name; rewrite ?app_empty; reflexivity.
  - do 4 right; left. exists N. split; [exact Hi|].
    destruct Hf as [<-|[<-|[<-|[<-|[<-|[<-|[]]]]]]];
    [exists Sph; left|exists Sph; right|exists Cart; left|exists Cart; right|exists Spinor; left|exists Spinor; right];
    reflexivity.
  - do 5 right; left. exists N. split; [exact Hi|].
    destruct Hf as [<-|[<-|[<-|[]]]]; [exists Sph|exists Cart|exists Spinor]; reflexivity.
  - do 2 right; left. exists N. split; [exact Hi|].
    destruct Hf as [<-|[<-|[]]]; [left|right]; reflexivity.
  - do 3 right; left. exists N. split; [exact Hi|].
    destruct Hf as [<-|[]]. reflexivity.
Qed.
