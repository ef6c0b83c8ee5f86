(** OutBad.v — the (spherical, spherical | Cartesian) output, complex zero fill, and
    where the drivers go wrong. *)
From Coq Require Import Reals.
From Verif Require Import Base BasModel EnvModel OutModel OutSpec OutRules OutNest OutProof SphProof SphOut SphOut2 OutFinal TabSph TabModel OutSetup.
Local Open Scope Z_scope.

Lemma for_one {S} (f : Z -> S -> option S) s : for_ 0 1 f s = f 0 s.
Proof. rewrite for_step by lia. destruct (f 0 s) as [t|]; [|reflexivity]. cbn [bind]. apply for_nil. lia. Qed.

(** ** ssc output: packed, one contraction of shell i, one component, non-empty *)
Section Ssc.
  Variables (ng : ngT) (li lj lk cj ck : Z) (omega_neg : bool).
  Variables (out gctr : arr R) (x : Z -> R).
  Notation fi := (CINTlen_cart li). Notation fj := (CINTlen_cart lj). Notation fk := (CINTlen_cart lk).
  Notation si := (li * 2 + 1). Notation sj := (lj * 2 + 1).
  Notation e := (init_int3c2e omega_neg ng li lj lk 1 cj ck).

  Lemma ssc_packed : 0 <= li <= 15 -> 0 <= lj <= 15 -> 0 <= lk <= 15 -> 0 <= cj -> 0 <= ck ->
    ncompA ng = 1 -> si * (sj * cj) * (fk * ck) <= asize out ->
    reads gctr (nf e * cj * ck) x ->
    exists out', CINT3c2e_drv_tail 0%R Rplus Rmult sph_coef SscK true true None out gctr e = Some out' /\
      stored_block out out' 1 si (sj * cj) (fk * ck) 1 si (sj * cj) (fk * ck) 1
        (fun _ I J K _ => sph_ssc 0%R Rplus Rmult sph_coef c2s_off CINTlen_cart li lj lk
           (batch3 x (fi * fk * fj) 1 cj ck 0 0 (J / sj) (K / fk)) I (J mod sj) (K mod fk)).
  Proof.
    intros Hli Hlj Hlk Hcj Hck Hn Hsz Hx.
    assert (HE : env3 ng li lj lk 1 cj ck e) by (left; exists omega_neg; reflexivity).
    destruct (env3_ok _ _ _ _ _ _ _ _ HE) as [SH [Efk [Enf En]]]. rewrite Hn in En.
    destruct SH as [Ei Ej Ek El Efi Efj Eci Ecj Eck Ecl].
    assert (Hfk : 1 <= fk) by (apply len_cart_pos; lia).
    unfold CINT3c2e_drv_tail, drv_tail. rewrite En, Efi, Efj, Efk, Eci, Ecj, Eck.
    cbn [nout3]. unfold nout3. cbn [rd arr4 of_fun inb asize acell andb Z.leb Z.ltb Z.compare Pos.compare Pos.compare_cont Z.eqb Pos.eqb bind].
    rewrite for_one, !Z.mul_0_r. set (d := arr4 _ _ _ _).
    destruct (wp_puts_stored (fun out => c2s_sph_3c2e1_ssc 0%R Rplus Rmult sph_coef out 0 (sub gctr 0) d e)
      1 si (sj * cj) (fk * ck) 1 si (sj * cj) (fk * ck) 1
      (fun _ I J K _ => sph_ssc 0%R Rplus Rmult sph_coef c2s_off CINTlen_cart li lj lk
           (batch3 x (fi * fk * fj) 1 cj ck 0 0 (J / sj) (K / fk)) I (J mod sj) (K mod fk)) out) as [out' [E H]]; try lia; try (apply room_full; lia).
    - pose proof (c2s_sph_ssc_puts 0%R 1%R Rplus Rmult Rminus Ropp RTheory sph_coef sph_table_ok (asize out)
        (blkV 1 si (sj * cj) (fk * ck) 1 si (sj * cj) (fk * ck) 1
          (fun _ I J K _ => sph_ssc 0%R Rplus Rmult sph_coef c2s_off CINTlen_cart li lj lk
           (batch3 x (fi * fk * fj) 1 cj ck 0 0 (J / sj) (K / fk)) I (J mod sj) (K mod fk)))
        e (sub gctr 0) x) as H'.
      rewrite Ei, Ej, Ek, Efi, Efj, Efk, Eci, Ecj, Eck in H'.
      specialize (H' Hli Hlj (eq_sym (len_cart_eq li Hli)) (eq_sym (len_cart_eq lj Hlj)) ltac:(lia) Hcj Hlk
        (eq_sym (len_cart_eq lk Hlk)) Hck eq_refl 0 d Enf).
      rewrite !Z.mul_1_r in H'. eapply puts_iff.
      + apply H'; clear H'.
        * intros q Hq. rewrite rd_sub by lia. apply Hx. exact Hq.
        * intros kc jc mk mj mi Hkc Hjc Hmk Hmj Hmi. cbv zeta.
          apply (blkV_at si (sj * cj) (fk * ck) 1 _ _ _ _ 1) with (n := 0) (i1 := mi) (i2 := jc * sj + mj) (i3 := kc * fk + mk) (i4 := 0);
            try assumption; try (apply idx_range; assumption); try (split; [|lia]; try apply Z.mul_nonneg_nonneg; lia); try lia; try (apply room_full; lia).
          -- unfold place. ring.
          -- rewrite !idx_div, !idx_mod by assumption. unfold sph_ssc.
             apply app_conv; [assumption|]. intros a Ha. apply app_conv; [assumption|]. intros b Hb.
             rewrite !len_cart_eq by assumption. unfold batch3. f_equal. rewrite Enf. ring.
      + intros z. split.
        * intros [n [i1 [i2 [i3 [i4 [Hn0 [A1 [A2 [A3 [A4 ->]]]]]]]]]].
          exists i4; split; [exact A4|]. exists i3; split; [exact A3|]. exists i2; split; [exact A2|]. exists i1; split; [exact A1|].
          unfold place. replace n with 0 by lia. ring.
        * intros [i4 [A4 [i3 [A3 [i2 [A2 [i1 [A1 ->]]]]]]]].
          exists 0, i1, i2, i3, i4. split; [lia|]. split; [exact A1|]. split; [exact A2|]. split; [exact A3|]. split; [exact A4|].
          unfold place. ring.
    - exists out'. auto.
  Qed.
End Ssc.

(** ** Complex zero fill
    A complex number is two adjacent doubles, so a block of complex numbers is a block
    of doubles with twice the fastest extents. *)
Section ZSet0.
  Context {A : Type} (zero : A).
  Variable sz : Z.
  Variable V : Z -> A -> Prop.

  Lemma zwr0_puts x : (forall b, 0 <= b < 2 -> 0 <= x * 2 + b < sz /\ V (x * 2 + b) zero) ->
    puts sz V (fun c => exists b, 0 <= b < 2 /\ c = x * 2 + b) (fun a => zwr0 zero a x).
  Proof.
    intros H. destruct (H 0 ltac:(lia)) as [A0 B0]. destruct (H 1 ltac:(lia)) as [A1 B1]. rewrite Z.add_0_r in *.
    eapply puts_iff; [apply puts_seq; apply puts_wr; assumption|].
    intros i. split.
    - intros [b [Hb ->]]. assert (b = 0 \/ b = 1) as [->| ->] by lia; [left; ring|right; ring].
    - intros [->| ->]; [exists 0|exists 1]; split; lia.
  Qed.

  (** doubles of a block of complex numbers *)
  Lemma dbl_iff o ni nj nk di dj dk dl x :
    blkO (o * 2) (ni * 2) nj nk (di * 2) dj dk dl x <->
    exists c, blkO o ni nj nk di dj dk dl c /\ exists b, 0 <= b < 2 /\ x = c * 2 + b.
  Proof.
    unfold blkO. split.
    - intros [l [Hl [k [Hk [j [Hj [i [Hi ->]]]]]]]].
      exists (o + (((l * nk + k) * nj + j) * ni + i / 2)). split.
      + exists l; split; [exact Hl|]. exists k; split; [exact Hk|]. exists j; split; [exact Hj|].
        exists (i / 2). split; [|reflexivity]. split; [apply Z.div_pos; lia|apply Z.div_lt_upper_bound; lia].
      + exists (i mod 2). split; [apply Z.mod_pos_bound; lia|].
        rewrite (Z.div_mod i 2) at 1 by lia. ring.
    - intros [c [[l [Hl [k [Hk [j [Hj [i [Hi ->]]]]]]]] [b [Hb ->]]]].
      exists l; split; [exact Hl|]. exists k; split; [exact Hk|]. exists j; split; [exact Hj|].
      exists (i * 2 + b). split; [lia|ring].
  Qed.

  Lemma zset0_dims_puts o (dims counts : arr Z) ni nj nk di dj dk dl : 0 <= dl ->
    rd dims 0 = Some ni -> rd dims 1 = Some nj -> rd dims 2 = Some nk ->
    rd counts 0 = Some di -> rd counts 1 = Some dj -> rd counts 2 = Some dk -> rd counts 3 = Some dl ->
    (forall x, blkO (o * 2) (ni * 2) nj nk (di * 2) dj dk dl x -> 0 <= x < sz /\ V x zero) ->
    puts sz V (blkO (o * 2) (ni * 2) nj nk (di * 2) dj dk dl) (fun out => c2s_zset0 zero out o dims counts false).
  Proof.
    intros Hdl D0 D1 D2 C0 C1 C2 C3 H. unfold c2s_zset0. rewrite D0, D1, D2, C0, C1, C2, C3. cbn [bind]. cbv zeta.
    apply puts_run with (I := fun s => s = o) (J := fun s => s = o + ni * nj * nk * dl); [|reflexivity].
    eapply putsS_conv with (J := fun p s => s = p); [|reflexivity|reflexivity].
    eapply putsS_iff.
    - apply (nest sz V (fun p s => s = p) (fun l x => exists k, 0 <= k < dk /\ exists j, 0 <= j < dj /\ exists i, 0 <= i < di /\
                 exists b, 0 <= b < 2 /\ x = (o + (((l * nk + k) * nj + j) * ni + i)) * 2 + b)); [exact Hdl|].
      intros l Hl a s Ha ->. apply wp_bind. eapply wp_mono.
      + eapply (puts_for sz V (fun k x => exists j, 0 <= j < dj /\ exists i, 0 <= i < di /\
                 exists b, 0 <= b < 2 /\ x = (o + (((l * nk + k) * nj + j) * ni + i)) * 2 + b)); [|exact Ha].
        intros k Hk. apply (puts_for sz V (fun j x => exists i, 0 <= i < di /\
                 exists b, 0 <= b < 2 /\ x = (o + (((l * nk + k) * nj + j) * ni + i)) * 2 + b)).
        intros j Hj. apply (puts_for sz V (fun i x =>
                 exists b, 0 <= b < 2 /\ x = (o + (((l * nk + k) * nj + j) * ni + i)) * 2 + b)).
        intros i Hi.
        replace (o + ni * nj * nk * l + k * (ni * nj) + (j * ni + i)) with (o + (((l * nk + k) * nj + j) * ni + i)) by ring.
        apply zwr0_puts. intros b Hb. apply H. apply dbl_iff.
        exists (o + (((l * nk + k) * nj + j) * ni + i)). split; [|exists b; auto].
        exists l; split; [lia|]. exists k; split; [lia|]. exists j; split; [lia|]. exists i; split; [lia|reflexivity].
      + intros b Hb. cbn [wp fst snd]. split; [exact Hb|ring].
    - intros x. rewrite dbl_iff. unfold blkO. split.
      + intros [c [[l [Hl [k [Hk [j [Hj [i [Hi ->]]]]]]]] [b [Hb ->]]]].
        exists l; split; [exact Hl|]. exists k; split; [exact Hk|]. exists j; split; [exact Hj|]. exists i; split; [exact Hi|].
        exists b; auto.
      + intros [l [Hl [k [Hk [j [Hj [i [Hi [b [Hb ->]]]]]]]]]].
        exists (o + (((l * nk + k) * nj + j) * ni + i)). split; [|exists b; auto].
        exists l; split; [exact Hl|]. exists k; split; [exact Hk|]. exists j; split; [exact Hj|]. exists i; split; [exact Hi|]. reflexivity.
  Qed.

  Lemma zset0_alias_puts o (dims : arr Z) ni nj nk nl : 0 <= ni -> 0 <= nj -> 0 <= nk -> 0 <= nl ->
    rd dims 0 = Some ni -> rd dims 1 = Some nj -> rd dims 2 = Some nk -> rd dims 3 = Some nl ->
    (forall x, blkO (o * 2) (ni * 2) nj nk (ni * 2) nj nk nl x -> 0 <= x < sz /\ V x zero) ->
    puts sz V (blkO (o * 2) (ni * 2) nj nk (ni * 2) nj nk nl) (fun out => c2s_zset0 zero out o dims dims true).
  Proof.
    intros N1 N2 N3 N4 D0 D1 D2 D3 H. unfold c2s_zset0. rewrite D0, D1, D2, D3. cbn [bind]. cbv zeta.
    eapply puts_iff.
    - apply (puts_for sz V (fun i x => exists b, 0 <= b < 2 /\ x = (o + i) * 2 + b)). intros i Hi.
      apply zwr0_puts. intros b Hb. apply H. apply dbl_iff. exists (o + i). split; [|exists b; auto].
      apply flat4; [assumption..|]. exists i. auto.
    - intros x. rewrite dbl_iff. split.
      + intros [c [Hc [b [Hb ->]]]]. apply flat4 in Hc; [|assumption..]. destruct Hc as [q [Hq ->]].
        exists q. split; [exact Hq|]. exists b. auto.
      + intros [q [Hq [b [Hb ->]]]]. exists (o + q). split; [|exists b; auto].
        apply flat4; [assumption..|]. exists q. auto.
  Qed.
End ZSet0.

(** zero fill of the complex drivers: one call per component; [dims] is the caller's array
    or the counts themselves *)
Section ZTail.
  Context {A : Type} (zero : A).
  Variables n1 n2 n3 n4 m1 m2 m3 m4 ncomp : Z.
  Hypothesis L1 : 0 <= m1 <= n1.
  Hypothesis L2 : 0 <= m2 <= n2.
  Hypothesis L3 : 0 <= m3 <= n3.
  Hypothesis L4 : 0 <= m4 <= n4.

  Lemma zset0_tail (dims : option (arr Z)) (n3' : Z) (out : arr A) :
    let counts := arr4 m1 m2 m3 m4 in
    let d := match dims with None => counts | Some d => d end in
    rd d 0 = Some n1 -> rd d 1 = Some n2 -> rd d 2 = Some n3' -> (n3' = n3 \/ m4 = 1) ->
    room (asize out) ncomp (n1 * 2) n2 n3 n4 (m1 * 2) m2 m3 m4 ->
    exists out', for_ 0 ncomp (fun n out => c2s_zset0 zero out (n1 * n2 * n3 * n4 * n) d counts
                   (match dims with None => true | _ => false end)) out = Some out' /\
      stored_block out out' ncomp (n1 * 2) n2 n3 n4 (m1 * 2) m2 m3 m4 (fun _ _ _ _ _ => zero).
  Proof.
    intros counts d D0 D1 D2 Hn3 Hsz. apply comp_loop; try lia; try assumption. intros n Hn.
    destruct (rd_arr4 m1 m2 m3 m4) as [C0 [C1 [C2 C3]]]. fold counts in C0, C1, C2, C3.
    assert (OK : forall x, blkO (n1 * 2 * n2 * n3 * n4 * n) (n1 * 2) n2 n3 (m1 * 2) m2 m3 m4 x ->
      0 <= x < asize out /\ blkV ncomp (n1 * 2) n2 n3 n4 (m1 * 2) m2 m3 m4 (fun _ _ _ _ _ => zero) x zero).
    { intros x Hx. apply (zero_ok zero (n1 * 2) n2 n3 n4 (m1 * 2) m2 m3 m4 ncomp) with (n := n); try lia; assumption. }
    assert (EO : n1 * n2 * n3 * n4 * n * 2 = n1 * 2 * n2 * n3 * n4 * n) by ring.
    destruct dims as [dd|].
    - eapply puts_iff.
      + apply (zset0_dims_puts zero (asize out) _ (n1 * n2 * n3 * n4 * n) d counts n1 n2 n3' m1 m2 m3 m4); auto; [lia|].
        intros x Hx. apply OK. rewrite <- EO.
        destruct Hn3 as [E|E]; [rewrite E in Hx; exact Hx|rewrite E in *; eapply blkO_n3; exact Hx].
      + intros x. rewrite EO. destruct Hn3 as [E|E]; [rewrite E; reflexivity|rewrite E; apply blkO_n3].
    - unfold d in *. rewrite C0 in D0. rewrite C1 in D1. rewrite C2 in D2.
      injection D0 as D0. injection D1 as D1. injection D2 as D2.
      eapply puts_iff.
      + apply (zset0_alias_puts zero (asize out) _ (n1 * n2 * n3 * n4 * n) counts m1 m2 m3 m4); try lia; auto.
        intros x Hx. apply OK. rewrite <- EO. rewrite <- D0, <- D1 in *.
        destruct Hn3 as [E|E]; [rewrite <- E, <- D2 in *; exact Hx|rewrite E in *; eapply blkO_n3; exact Hx].
      + intros x. rewrite EO, D0, D1. destruct Hn3 as [E|E].
        * rewrite D2, E. reflexivity.
        * rewrite E. apply blkO_n3.
  Qed.
End ZTail.

(** ** What fails *)
Section Bad.
  Context {F : Type} (zero : F) (add mul : F -> F -> F) (coef : Z -> F).

  (** a dims array with just the two leading dimensions *)
  Lemma two_entry_dims k e (d : arr Z) out gctr : asize d = 2 -> 0 < ncomp_e1 e * ncomp_tensor e ->
    CINT1e_drv_tail zero add mul coef k false (Some d) out gctr e = None.
  Proof.
    intros Hd Hn. unfold CINT1e_drv_tail, drv_tail. destruct (nout2 d); [|reflexivity]. cbn [bind].
    rewrite for_step by exact Hn. unfold c2s_dset0. destruct (rd d 0); [|reflexivity]. cbn [bind].
    destruct (rd d 1); [|reflexivity]. cbn [bind]. unfold rd at 1, inb. rewrite Hd. reflexivity.
  Qed.
  Lemma three_entry_dims_grids k e (d : arr Z) ngrids out gctr : asize d = 3 -> 0 < ncomp_e1 e * ncomp_tensor e ->
    CINT1e_grids_drv_tail zero add mul coef k false (Some d) ngrids out gctr e = None.
  Proof.
    intros Hd Hn. unfold CINT1e_grids_drv_tail, drv_tail. destruct (nout3 d); [|reflexivity]. cbn [bind].
    rewrite for_step by exact Hn. unfold c2s_grids_dset0.
    assert (E : permuted d = None).
    { unfold permuted. destruct (rd d 2); [|reflexivity]. cbn [bind]. destruct (rd d 0); [|reflexivity]. cbn [bind].
      destruct (rd d 1); [|reflexivity]. cbn [bind]. unfold rd, inb. rewrite Hd. reflexivity. }
    rewrite E. match goal with |- context [permuted ?c] => destruct (permuted c); reflexivity end.
  Qed.

  Definition ng0 : ngT := mkng 0 0 0 0 0 1 1 1.
  Definition const_arr (n : Z) (v : F) : arr F := of_fun n (fun _ => v).

  (** dims ignored: s shells, two contractions of shell j, leading dimension 2 *)
  Lemma ssc_dims v : exists out', CINT3c2e_drv_tail zero add mul coef SscK true true (Some (arr4 2 2 1 1))
      (uninit 4) (const_arr 2 v) (init_int3c2e false ng0 0 0 0 1 2 1) = Some out' /\
    rd out' (place 2 2 1 1 0 0 1 0 0) = None /\ acell out' 1 <> None.
  Proof. eexists. split; [vm_compute; reflexivity|]. split; [vm_compute; reflexivity|vm_compute; discriminate]. Qed.
  (** d shell with two contractions: writes past an output of exactly the documented size *)
  Lemma ssc_ctr v : CINT3c2e_drv_tail zero add mul coef SscK true true None
      (uninit (10 * 1 * 1)) (const_arr 12 v) (init_int3c2e false ng0 2 0 0 2 1 1) = None.
  Proof. vm_compute. reflexivity. Qed.
  Lemma ssc_zero v : CINT3c2e_drv_tail zero add mul coef SscK true false None
      (uninit (5 * 1 * 1)) (const_arr 6 v) (init_int3c2e false ng0 2 0 0 1 1 1) = None.
  Proof. vm_compute. reflexivity. Qed.
End Bad.
