(** SpinorDrv.v — the spinor drivers after their contraction loops. *)
From Coq Require Import Ring.
From Verif Require Import Base BasModel EnvModel OutModel OutSpec OutRules OutProof OutNest SphProof SphOut OutFinal OutBad
  SpinorModel SpinorSpec SpinorFill SpinorBra SpinorKet SpinorConv SpinorOut SpinorOut2 SpinorTwo.

Section T.
  Context {F : Type} (zero : F).
  Variables n1 n2 n3 n4 m1 m2 m3 m4 ncomp : Z.
  Hypothesis L1 : 0 <= m1 <= n1.
  Hypothesis L2 : 0 <= m2 <= n2.
  Hypothesis L3 : 0 <= m3 <= n3.
  Hypothesis L4 : 0 <= m4 <= n4.
  Definition zval5 (val : Z -> Z -> Z -> Z -> Z -> cplx (F := F)) : Z -> Z -> Z -> Z -> Z -> F :=
    fun n p J K L => part (p mod 2) (val n (p / 2) J K L).

  Lemma zok_at sz val n i1 i2 i3 i4 x z :
    room sz ncomp (n1 * 2) n2 n3 n4 (m1 * 2) m2 m3 m4 ->
    0 <= n < ncomp -> 0 <= i1 < m1 -> 0 <= i2 < m2 -> 0 <= i3 < m3 -> 0 <= i4 < m4 ->
    x = place n1 n2 n3 n4 n i1 i2 i3 i4 -> z = val n i1 i2 i3 i4 ->
    zok sz (blkV ncomp (n1 * 2) n2 n3 n4 (m1 * 2) m2 m3 m4 (zval5 val)) x z.
  Proof.
    intros Hsz Hn A1 A2 A3 A4 -> -> b Hb.
    apply (blkV_at (n1 * 2) n2 n3 n4 (m1 * 2) m2 m3 m4 ncomp) with (n := n) (i1 := i1 * 2 + b) (i2 := i2) (i3 := i3) (i4 := i4);
      try assumption; try lia.
    - unfold place. ring.
    - unfold zval5. assert (E1 : (i1 * 2 + b) mod 2 = b) by (rewrite Z.add_comm, Z.mod_add, Z.mod_small by lia; reflexivity).
      assert (E2 : (i1 * 2 + b) / 2 = i1) by (rewrite Z.add_comm, Z.div_add, Z.div_small by lia; reflexivity).
      rewrite E1, E2. reflexivity.
  Qed.

  Lemma zcomp_loop (out : arr F) val c :
    room (asize out) ncomp (n1 * 2) n2 n3 n4 (m1 * 2) m2 m3 m4 ->
    (forall n, 0 <= n < ncomp -> puts (asize out) (blkV ncomp (n1 * 2) n2 n3 n4 (m1 * 2) m2 m3 m4 (zval5 val))
       (blkO (n1 * n2 * n3 * n4 * n * 2) (n1 * 2) n2 n3 (m1 * 2) m2 m3 m4) (c n)) ->
    exists out', for_ 0 ncomp c out = Some out' /\ stored_block out out' ncomp (n1 * 2) n2 n3 n4 (m1 * 2) m2 m3 m4 (zval5 val).
  Proof.
    intros Hsz H. apply comp_loop; try lia; [exact Hsz|]. intros n Hn. 
    replace (n1 * 2 * n2 * n3 * n4 * n) with (n1 * n2 * n3 * n4 * n * 2) by ring. apply H. exact Hn.
  Qed.

  Definition either (hv : bool) (val : Z -> Z -> Z -> Z -> Z -> cplx (F := F)) : Z -> Z -> Z -> Z -> Z -> F :=
    fun n p J K L => if hv then part (p mod 2) (val n (p / 2) J K L) else zero.

  Lemma ztail f_c2s (hv : bool) nc noutf (dims : option (arr Z)) (out gctr : arr F) val n3' :
    let counts := arr4 m1 m2 m3 m4 in
    let d := match dims with None => counts | Some d => d end in
    noutf d = Some (n1 * n2 * n3 * n4) ->
    rd d 0 = Some n1 -> rd d 1 = Some n2 -> (hv = false -> rd d 2 = Some n3' /\ (n3' = n3 \/ m4 = 1)) ->
    room (asize out) ncomp (n1 * 2) n2 n3 n4 (m1 * 2) m2 m3 m4 ->
    (hv = true -> forall n, 0 <= n < ncomp -> puts (asize out) (blkV ncomp (n1 * 2) n2 n3 n4 (m1 * 2) m2 m3 m4 (zval5 val))
       (blkO (n1 * n2 * n3 * n4 * n * 2) (n1 * 2) n2 n3 (m1 * 2) m2 m3 m4)
       (fun out => f_c2s out (n1 * n2 * n3 * n4 * n) (sub gctr (nc * n)) d)) ->
    exists out', drv_tail f_c2s (c2s_zset0 zero) hv ncomp nc noutf counts dims out gctr = Some out' /\
      stored_block out out' ncomp (n1 * 2) n2 n3 n4 (m1 * 2) m2 m3 m4 (either hv val).
  Proof.
    intros counts d En D0 D1 D2 Hsz H. unfold drv_tail. fold d. rewrite En. cbn [bind]. destruct hv.
    - apply zcomp_loop; [exact Hsz|]. apply H. reflexivity.
    - destruct (D2 eq_refl) as [D2' D3].
      apply (zset0_tail zero n1 n2 n3 n4 m1 m2 m3 m4 ncomp L1 L2 L3 L4 dims n3' out); assumption.
  Qed.
End T.

Section D.
  Context {F : Type} (zero one : F) (add mul sub_ : F -> F -> F) (opp : F -> F).
  Hypothesis Rth : ring_theory zero one add mul sub_ opp eq.
  Context (tJR tJI : Z -> F) (isz : F -> bool).
  Hypothesis Hisz : forall x, isz x = true -> x = zero.
  Notation Pair := (spinor_pair zero one add mul sub_ opp tJR tJI).
  Notation Phase := (with_phase zero one add mul sub_).
  Notation cr := (cre zero).
  Variable e : envs.
  Variables li lj lk ll ci cj ck cl : Z.
  Hypothesis SH : shells e li lj lk ll ci cj ck cl.
  Hypothesis Hli : 0 <= li <= 12.
  Hypothesis Hlj : 0 <= lj <= 12.
  Hypothesis Hci : 0 <= ci.
  Hypothesis Hcj : 0 <= cj.
  Variables (spin phase : bool) (ikp jkp : Z).
  Variables (hv : bool) (dims : option (arr Z)) (out gctr : arr F) (x : Z -> F).
  Variables n1 n2 : Z.
  Notation di := (len_spinor ikp li).
  Notation dj := (len_spinor jkp lj).
  Notation fi := (ncart li).
  Notation fj := (ncart lj).
  Definition need : Prop := (if spin then 4 else 1) <= ncomp_e1 e.

  Lemma cl_nc l : 0 <= l <= 15 -> CINTlen_cart l = ncart l.
  Proof. intros H. rewrite <- len_cart_eq by exact H. apply len_cart_ncart. exact H. Qed.

  Lemma real_pick y pg dist q : real_in zero spin y pg dist q =
    cpick zero spin (fun c => cr (y (pg + c * dist + q))).
  Proof. unfold real_in, cpick. destruct spin; f_equal; apply (f_equal cr); apply f_equal; ring. Qed.

  (** the part of the batch the routine of tensor component n works on *)
  Lemma part_reads N n nt (y := fun q => x (N * ncomp_e1 e * n + q)) : need -> 0 <= N -> 0 <= n < nt ->
    reads gctr (nt * (N * ncomp_e1 e)) x ->
    reads (sub gctr (N * ncomp_e1 e * n)) (nspin spin * N) y.
  Proof.
    intros Hd HN Hn Hx. unfold need in Hd. set (E := ncomp_e1 e) in *.
    assert (X : nspin spin * N <= N * E) by (unfold nspin; destruct spin; nia).
    assert (PE : 0 <= E) by (destruct spin; lia).
    assert (B : 0 <= N * E) by nia.
    eapply reads_sub; [| |exact Hx]; nia.
  Qed.

  Lemma spinor_1e_tail :
    nf e = fi * fj -> need -> 0 <= ncomp_tensor e ->
    di * ci <= n1 -> dj * cj <= n2 ->
    dims_are dims 2 [n1; n2] [di * ci; dj * cj] ->
    (hv = false -> match dims with Some d => exists n3, rd d 2 = Some n3 | None => True end) ->
    room (asize out) (ncomp_tensor e) (n1 * 2) n2 1 1 (di * ci * 2) (dj * cj) 1 1 ->
    (hv = true -> reads gctr (ncomp_tensor e * (nf e * ci * cj * ncomp_e1 e)) x) ->
    exists out', CINT1e_spinor_drv_tail zero add mul sub_ opp isz tJR tJI spin phase ikp jkp hv dims out gctr e = Some out' /\
      stored_block out out' (ncomp_tensor e) (n1 * 2) n2 1 1 (di * ci * 2) (dj * cj) 1 1
        (either zero hv (fun n I J _ _ => spinor_1e zero one add mul sub_ opp tJR tJI spin phase ikp li jkp lj x ci cj (ncomp_e1 e) n I J)).
  Proof.
    intros Enf Hnd Hnt M1 M2 HD HD2 Hsz Hx. destruct SH as [Ei Ej Ek El Efi Efj Eci Ecj Eck Ecl].
    rewrite cl_nc in Efi, Efj by lia.
    assert (Pfi : 0 < fi) by (apply ncart_pos; lia). assert (Pfj : 0 < fj) by (apply ncart_pos; lia).
    assert (Pi : 0 <= di) by (apply len_spinor_nonneg; lia). assert (Pj : 0 <= dj) by (apply len_spinor_nonneg; lia).
    unfold CINT1e_spinor_drv_tail. rewrite Ei, Ej, Eci, Ecj.
    pose proof (dims2 _ _ _ _ _ HD) as [D0 D1].
    set (d := match dims with None => _ | Some d => d end) in *.
    assert (P1 : 0 <= di * ci) by (apply Z.mul_nonneg_nonneg; lia).
    assert (P2 : 0 <= dj * cj) by (apply Z.mul_nonneg_nonneg; lia).
    assert (Pc : 0 <= ci * cj) by (apply Z.mul_nonneg_nonneg; lia).
    assert (Pnc : 0 <= nf e * (ci * cj)) by (rewrite Enf; repeat apply Z.mul_nonneg_nonneg; lia).
    assert (D2 : hv = false -> exists n3', rd d 2 = Some n3').
    { unfold d. intros Hh. destruct dims; [apply HD2; exact Hh|exists 1; reflexivity]. }
    assert (D2' : exists n3', hv = false -> rd d 2 = Some n3').
    { destruct hv; [exists 0; discriminate|]. destruct (D2 eq_refl) as [z Hz]. exists z. auto. }
    clear D2. destruct D2' as [n3' D2].
    apply (ztail zero n1 n2 1 1 (di * ci) (dj * cj) 1 1 (ncomp_tensor e)) with (n3' := n3'); try lia; try assumption.
    - fold d. unfold nout2. rewrite D0, D1. cbn [bind]. f_equal. ring.
    - intros Hh. split; [apply D2; exact Hh|right; reflexivity].
    - intros Hh n Hn. specialize (Hx Hh). fold d.
      replace (nf e * ci * cj * ncomp_e1 e) with (nf e * (ci * cj) * ncomp_e1 e) in * by ring.
      pose proof (c2s_spinor_1e_puts zero one add mul sub_ opp Rth tJR tJI isz Hisz e spin phase ikp jkp
        (sub gctr (nf e * (ci * cj) * ncomp_e1 e * n)) (fun q => x (nf e * (ci * cj) * ncomp_e1 e * n + q))) as H'.
      specialize (H' ltac:(lia) ltac:(lia) ltac:(rewrite Efi, Ei, len_cart_ncart by lia; reflexivity) ltac:(rewrite Efj, Ej, len_cart_ncart by lia; reflexivity)).
      rewrite Ei, Ej, Efi, Efj, Eci, Ecj in H'.
      specialize (H' (asize out) (blkV (ncomp_tensor e) (n1 * 2) n2 1 1 (di * ci * 2) (dj * cj) 1 1
           (zval5 (fun n I J _ _ => spinor_1e zero one add mul sub_ opp tJR tJI spin phase ikp li jkp lj x ci cj (ncomp_e1 e) n I J)))
        d n1 n2 1 D0 D1 Hci Hcj (n1 * n2 * 1 * 1 * n)). apply H'; clear H'; try assumption.
      + apply (part_reads _ n (ncomp_tensor e)); auto.
      + intros jc ic mj mi Hjc Hic Hj Hi.
        apply (zok_at n1 n2 1 1 _ _ _ _ (ncomp_tensor e)) with (n := n) (i1 := ic * di + mi) (i2 := jc * dj + mj) (i3 := 0) (i4 := 0);
          try assumption; try (apply idx_range; assumption); try (split; lia); try lia.
        * unfold place. ring.
        * unfold spinor_1e. rewrite <- !len_nspinor. rewrite !idx_div, !idx_mod by assumption. f_equal.
          apply pair_ext. intros a b Ha Hb. rewrite real_pick. unfold batch2.
          unfold cpick. destruct spin; f_equal; apply (f_equal cr); apply f_equal; rewrite Enf; ring.
  Qed.

  Lemma spinor_2c_tail :
    nf e = fi * fj -> ncomp_e1 e = 1 -> ncomp_e2 e = 1 -> spin = false -> 0 <= ncomp_tensor e ->
    di * ci <= n1 -> dj * cj <= n2 ->
    dims_are dims 2 [n1; n2] [di * ci; dj * cj] ->
    (hv = false -> match dims with Some d => exists n3, rd d 2 = Some n3 | None => True end) ->
    room (asize out) (ncomp_tensor e) (n1 * 2) n2 1 1 (di * ci * 2) (dj * cj) 1 1 ->
    (hv = true -> reads gctr (ncomp_tensor e * (nf e * ci * cj)) x) ->
    exists out', CINT2c2e_spinor_drv_tail zero add mul sub_ opp isz tJR tJI spin phase ikp jkp hv dims out gctr e = Some out' /\
      stored_block out out' (ncomp_tensor e) (n1 * 2) n2 1 1 (di * ci * 2) (dj * cj) 1 1
        (either zero hv (fun n I J _ _ => spinor_1e zero one add mul sub_ opp tJR tJI spin phase ikp li jkp lj x ci cj 1 n I J)).
  Proof.
    intros Enf E1 E2 Es Hnt M1 M2 HD HD2 Hsz Hx.
    assert (X : CINT2c2e_spinor_drv_tail zero add mul sub_ opp isz tJR tJI spin phase ikp jkp hv dims out gctr e =
                CINT1e_spinor_drv_tail zero add mul sub_ opp isz tJR tJI spin phase ikp jkp hv dims out gctr e).
    { unfold CINT2c2e_spinor_drv_tail, CINT1e_spinor_drv_tail. rewrite E1, E2. cbn [Z.ltb Z.compare Pos.compare Pos.compare_cont orb].
      rewrite !Z.mul_1_r. f_equal. ring. }
    rewrite X. replace (spinor_1e zero one add mul sub_ opp tJR tJI spin phase ikp li jkp lj x ci cj 1) with
      (spinor_1e zero one add mul sub_ opp tJR tJI spin phase ikp li jkp lj x ci cj (ncomp_e1 e)) by (rewrite E1; reflexivity).
    apply spinor_1e_tail; auto.
    - unfold need. rewrite Es. lia.
    - rewrite E1, Z.mul_1_r. exact Hx.
  Qed.

  Variable n3 : Z.
  Hypothesis Hck : 0 <= ck.
  Hypothesis Hlk : 0 <= lk <= 15.
  Notation fk := (ncart lk).

  Lemma spinor_ssc_tail coef :
    nfk e = fk -> nf e = fi * fk * fj -> need -> 0 <= ncomp_e2 e * ncomp_tensor e ->
    di * ci <= n1 -> dj * cj <= n2 -> fk * ck <= n3 ->
    dims_are dims 3 [n1; n2; n3] [di * ci; dj * cj; fk * ck] ->
    room (asize out) (ncomp_e2 e * ncomp_tensor e) (n1 * 2) n2 n3 1 (di * ci * 2) (dj * cj) (fk * ck) 1 ->
    (hv = true -> reads gctr (ncomp_e2 e * ncomp_tensor e * (nf e * ci * cj * ck * ncomp_e1 e)) x) ->
    exists out', CINT3c2e_spinor_drv_tail zero add mul sub_ opp isz tJR tJI coef true spin phase ikp jkp hv dims out gctr e = Some out' /\
      stored_block out out' (ncomp_e2 e * ncomp_tensor e) (n1 * 2) n2 n3 1 (di * ci * 2) (dj * cj) (fk * ck) 1
        (either zero hv (fun n I J K _ => spinor_ssc zero one add mul sub_ opp tJR tJI spin phase ikp li jkp lj lk x ci cj ck (ncomp_e1 e) n I J K)).
  Proof.
    intros Efk Enf Hnd Hnt M1 M2 M3 HD Hsz Hx. destruct SH as [Ei Ej Ek El Efi Efj Eci Ecj Eck Ecl].
    rewrite cl_nc in Efi, Efj by lia.
    assert (Pfi : 0 < fi) by (apply ncart_pos; lia). assert (Pfj : 0 < fj) by (apply ncart_pos; lia).
    assert (Pfk : 0 < fk) by (apply ncart_pos; lia).
    assert (Pi : 0 <= di) by (apply len_spinor_nonneg; lia). assert (Pj : 0 <= dj) by (apply len_spinor_nonneg; lia).
    unfold CINT3c2e_spinor_drv_tail. cbv iota. rewrite Ei, Ej, Eci, Ecj, Eck, Efk.
    pose proof (dims3 _ _ _ _ _ _ _ HD) as [D0 [D1 D2]].
    set (d := match dims with None => _ | Some d => d end) in *.
    assert (P1 : 0 <= di * ci) by (apply Z.mul_nonneg_nonneg; lia).
    assert (P2 : 0 <= dj * cj) by (apply Z.mul_nonneg_nonneg; lia).
    assert (P3 : 0 <= fk * ck) by (apply Z.mul_nonneg_nonneg; lia).
    assert (Pc : 0 <= ci * cj * ck) by (repeat apply Z.mul_nonneg_nonneg; lia).
    assert (Pnc : 0 <= nf e * (ci * cj * ck)) by (rewrite Enf; repeat apply Z.mul_nonneg_nonneg; lia).
    set (nt := ncomp_e2 e * ncomp_tensor e) in *.
    apply (ztail zero n1 n2 n3 1 (di * ci) (dj * cj) (fk * ck) 1 nt) with (n3' := n3); try lia; try assumption.
    - fold d. unfold nout3. rewrite D0, D1, D2. cbn [bind]. f_equal. ring.
    - intros _. split; [exact D2|left; reflexivity].
    - intros Hh n Hn. specialize (Hx Hh). fold d.
      replace (nf e * ci * cj * ck * ncomp_e1 e) with (nf e * (ci * cj * ck) * ncomp_e1 e) in * by ring.
      pose proof (c2s_spinor_3c2e1_ssc_puts zero one add mul sub_ opp Rth tJR tJI isz Hisz e spin phase ikp jkp
        (sub gctr (nf e * (ci * cj * ck) * ncomp_e1 e * n)) (fun q => x (nf e * (ci * cj * ck) * ncomp_e1 e * n + q))) as H'.
      specialize (H' ltac:(lia) ltac:(lia) ltac:(rewrite Efi, Ei, len_cart_ncart by lia; reflexivity) ltac:(rewrite Efj, Ej, len_cart_ncart by lia; reflexivity)).
      rewrite Ei, Ej, Efi, Efj, Eci, Ecj, Eck, Efk in H'.
      specialize (H' (asize out) (blkV nt (n1 * 2) n2 n3 1 (di * ci * 2) (dj * cj) (fk * ck) 1
           (zval5 (fun n I J K _ => spinor_ssc zero one add mul sub_ opp tJR tJI spin phase ikp li jkp lj lk x ci cj ck (ncomp_e1 e) n I J K)))
        d n1 n2 n3 D0 D1 Hci Hcj D2 Hck (n1 * n2 * n3 * 1 * n)). apply H'; clear H'; try assumption; try lia.
      + apply (part_reads _ n nt); auto.
      + intros kc jc ic mk mj mi Hkc Hjc Hic Hk Hj Hi.
        apply (zok_at n1 n2 n3 1 _ _ _ _ nt) with (n := n) (i1 := ic * di + mi) (i2 := jc * dj + mj) (i3 := kc * fk + mk) (i4 := 0);
          try assumption; try (apply idx_range; assumption); try (split; lia); try lia.
        * unfold place. ring.
        * unfold spinor_ssc. rewrite <- !len_nspinor. rewrite !idx_div, !idx_mod by assumption. f_equal.
          apply pair_ext. intros a b Ha Hb. rewrite real_pick. unfold batch3.
          unfold cpick. destruct spin; f_equal; apply (f_equal cr); apply f_equal; rewrite Enf; ring.
  Qed.

  Lemma spinor_3c_tail coef : table_ok zero one coef ->
    nfk e = fk -> nf e = fi * fk * fj -> need -> 0 <= ncomp_e2 e * ncomp_tensor e ->
    di * ci <= n1 -> dj * cj <= n2 -> (2 * lk + 1) * ck <= n3 ->
    dims_are dims 3 [n1; n2; n3] [di * ci; dj * cj; (2 * lk + 1) * ck] ->
    room (asize out) (ncomp_e2 e * ncomp_tensor e) (n1 * 2) n2 n3 1 (di * ci * 2) (dj * cj) ((2 * lk + 1) * ck) 1 ->
    (hv = true -> reads gctr (ncomp_e2 e * ncomp_tensor e * (nf e * ci * cj * ck * ncomp_e1 e)) x) ->
    exists out', CINT3c2e_spinor_drv_tail zero add mul sub_ opp isz tJR tJI coef false spin phase ikp jkp hv dims out gctr e = Some out' /\
      stored_block out out' (ncomp_e2 e * ncomp_tensor e) (n1 * 2) n2 n3 1 (di * ci * 2) (dj * cj) ((2 * lk + 1) * ck) 1
        (either zero hv (fun n I J K _ => spinor_3c zero one add mul sub_ opp tJR tJI coef c2s_off spin phase ikp li jkp lj lk x ci cj ck (ncomp_e1 e) n I J K)).
  Proof.
    intros Htab Efk Enf Hnd Hnt M1 M2 M3 HD Hsz Hx. destruct SH as [Ei Ej Ek El Efi Efj Eci Ecj Eck Ecl].
    rewrite cl_nc in Efi, Efj by lia.
    assert (Pfi : 0 < fi) by (apply ncart_pos; lia). assert (Pfj : 0 < fj) by (apply ncart_pos; lia).
    assert (Pfk : 0 < fk) by (apply ncart_pos; lia).
    assert (Pi : 0 <= di) by (apply len_spinor_nonneg; lia). assert (Pj : 0 <= dj) by (apply len_spinor_nonneg; lia).
    rewrite (Z.mul_comm 2 lk) in *.
    unfold CINT3c2e_spinor_drv_tail. cbv iota. rewrite Ei, Ej, Ek, Eci, Ecj, Eck.
    pose proof (dims3 _ _ _ _ _ _ _ HD) as [D0 [D1 D2]].
    set (d := match dims with None => _ | Some d => d end) in *.
    assert (P1 : 0 <= di * ci) by (apply Z.mul_nonneg_nonneg; lia).
    assert (P2 : 0 <= dj * cj) by (apply Z.mul_nonneg_nonneg; lia).
    assert (P3 : 0 <= (lk * 2 + 1) * ck) by (apply Z.mul_nonneg_nonneg; lia).
    assert (Pc : 0 <= ci * cj * ck) by (repeat apply Z.mul_nonneg_nonneg; lia).
    assert (Pnc : 0 <= nf e * (ci * cj * ck)) by (rewrite Enf; repeat apply Z.mul_nonneg_nonneg; lia).
    set (nt := ncomp_e2 e * ncomp_tensor e) in *.
    apply (ztail zero n1 n2 n3 1 (di * ci) (dj * cj) ((lk * 2 + 1) * ck) 1 nt) with (n3' := n3); try lia; try assumption.
    - fold d. unfold nout3. rewrite D0, D1, D2. cbn [bind]. f_equal. ring.
    - intros _. split; [exact D2|left; reflexivity].
    - intros Hh n Hn. specialize (Hx Hh). fold d.
      replace (nf e * ci * cj * ck * ncomp_e1 e) with (nf e * (ci * cj * ck) * ncomp_e1 e) in * by ring.
      pose proof (c2s_spinor_3c2e1_puts zero one add mul sub_ opp Rth tJR tJI isz Hisz coef Htab (asize out)
        (blkV nt (n1 * 2) n2 n3 1 (di * ci * 2) (dj * cj) ((lk * 2 + 1) * ck) 1
           (zval5 (fun n I J K _ => spinor_3c zero one add mul sub_ opp tJR tJI coef c2s_off spin phase ikp li jkp lj lk x ci cj ck (ncomp_e1 e) n I J K)))
        e spin phase ikp jkp d n1 n2 n3 D0 D1
        (sub gctr (nf e * (ci * cj * ck) * ncomp_e1 e * n)) (fun q => x (nf e * (ci * cj * ck) * ncomp_e1 e * n + q))) as H'.
      specialize (H' ltac:(lia) ltac:(lia) ltac:(rewrite Efi, Ei, len_cart_ncart by lia; reflexivity) ltac:(rewrite Efj, Ej, len_cart_ncart by lia; reflexivity)).
      rewrite Ei, Ej, Ek, Efi, Efj, Eci, Ecj, Eck, Efk in H'.
      specialize (H' Hci Hcj D2 Hck Hlk ltac:(rewrite len_cart_ncart by lia; reflexivity) (n1 * n2 * n3 * 1 * n)).
      apply H'; clear H'; try assumption; try lia.
      + apply (part_reads _ n nt); auto.
      + intros kc jc ic mk mj mi Hkc Hjc Hic Hk Hj Hi.
        apply (zok_at n1 n2 n3 1 _ _ _ _ nt) with (n := n) (i1 := ic * di + mi) (i2 := jc * dj + mj) (i3 := kc * (lk * 2 + 1) + mk) (i4 := 0);
          try assumption; try (apply idx_range; assumption); try (split; lia); try lia.
        * unfold place. ring.
        * unfold spinor_3c. rewrite (Z.mul_comm 2 lk), <- !len_nspinor. rewrite !idx_div, !idx_mod by assumption. f_equal.
          apply pair_ext. intros a b Ha Hb. unfold sphk_in, cpick, batch3.
          assert (L : len_cart lk = fk) by (apply len_cart_ncart; lia).
          assert (AT : forall f g, (forall c, f c = g c) ->
             apply_T zero add mul coef c2s_off len_cart lk mk f = apply_T zero add mul coef c2s_off ncart lk mk g).
          { intros f g Hfg. unfold apply_T, Tmat. rewrite L. apply lsum_ext. intros q Hq. rewrite Hfg, ?L. reflexivity. }
          destruct spin; f_equal; apply (f_equal cr); apply AT; intros c; apply f_equal; rewrite Enf, L; ring.
  Qed.

  (** ** Grids *)
  Variable N : Z.
  Hypothesis PN : 0 <= N.
  Lemma spinor_grids_tail :
    nf e = fi * fj -> need -> 0 <= ncomp_tensor e ->
    di * ci <= n1 -> dj * cj <= n2 -> N <= n3 ->
    dims_are dims 3 [n1; n2; n3] [di * ci; dj * cj; N] ->
    (hv = false -> match dims with Some d => exists n4, rd d 3 = Some n4 | None => True end) ->
    room (asize out) (ncomp_tensor e) (n3 * 2) n1 n2 1 (N * 2) (di * ci) (dj * cj) 1 ->
    (hv = true -> reads gctr (ncomp_tensor e * (N * nf e * ci * cj * ncomp_e1 e)) x) ->
    exists out', CINT1e_grids_spinor_drv_tail zero add mul sub_ opp isz tJR tJI spin phase ikp jkp hv dims N out gctr e = Some out' /\
      stored_block out out' (ncomp_tensor e) (n3 * 2) n1 n2 1 (N * 2) (di * ci) (dj * cj) 1
        (either zero hv (fun n g I J _ => spinor_grid zero one add mul sub_ opp tJR tJI spin phase ikp li jkp lj x ci cj N GRID_BLKSIZE (ncomp_e1 e) n g I J)).
  Proof.
    intros Enf Hnd Hnt M1 M2 M3 HD HD3 Hsz Hx. destruct SH as [Ei Ej Ek El Efi Efj Eci Ecj Eck Ecl].
    rewrite cl_nc in Efi, Efj by lia.
    assert (Pfi : 0 < fi) by (apply ncart_pos; lia). assert (Pfj : 0 < fj) by (apply ncart_pos; lia).
    assert (Pi : 0 <= di) by (apply len_spinor_nonneg; lia). assert (Pj : 0 <= dj) by (apply len_spinor_nonneg; lia).
    unfold CINT1e_grids_spinor_drv_tail, drv_tail. rewrite Ei, Ej, Eci, Ecj.
    pose proof (dims3 _ _ _ _ _ _ _ HD) as [D0 [D1 D2]].
    set (d := match dims with None => _ | Some d => d end) in *.
    unfold nout3. rewrite D0, D1, D2. cbn [bind].
    replace (n1 * n2 * n3) with (n3 * n1 * n2 * 1) by ring.
    assert (P1 : 0 <= di * ci) by (apply Z.mul_nonneg_nonneg; lia).
    assert (P2 : 0 <= dj * cj) by (apply Z.mul_nonneg_nonneg; lia).
    assert (Pnc : 0 <= N * nf e * ci * cj) by (rewrite Enf; repeat apply Z.mul_nonneg_nonneg; lia).
    set (val := fun n g I J (_ : Z) => spinor_grid zero one add mul sub_ opp tJR tJI spin phase ikp li jkp lj x ci cj N GRID_BLKSIZE (ncomp_e1 e) n g I J).
    destruct hv.
    - unfold either. apply (zcomp_loop n3 n1 n2 1 N (di * ci) (dj * cj) 1 (ncomp_tensor e)) with (val := val); try lia; [exact Hsz|].
      intros n Hn. specialize (Hx eq_refl).
      pose proof (c2s_spinor_1e_grids_puts zero one add mul sub_ opp Rth tJR tJI isz Hisz e spin phase ikp jkp
        (sub gctr (N * nf e * ci * cj * ncomp_e1 e * n)) (fun q => x (N * nf e * ci * cj * ncomp_e1 e * n + q))) as H'.
      specialize (H' ltac:(lia) ltac:(lia) ltac:(rewrite Efi, Ei, len_cart_ncart by lia; reflexivity) ltac:(rewrite Efj, Ej, len_cart_ncart by lia; reflexivity)).
      rewrite Ei, Ej, Efi, Efj, Eci, Ecj in H'.
      specialize (H' (asize out) (blkV (ncomp_tensor e) (n3 * 2) n1 n2 1 (N * 2) (di * ci) (dj * cj) 1 (zval5 val))
        d n1 n2 n3 D0 D1 Hci Hcj D2 (n3 * n1 * n2 * 1 * n) N PN). apply H'; clear H'; try assumption.
      + apply (part_reads _ n (ncomp_tensor e)); auto.
      + intros t jc ic mj mi m Ht Hjc Hic. cbv zeta. intros Hj Hi Hm.
        pose proof (block_start GRID_BLKSIZE N t ltac:(reflexivity) Ht) as Hgo.
        assert (Hm' : 0 <= m < GRID_BLKSIZE) by lia.
        apply (zok_at n3 n1 n2 1 _ _ _ _ (ncomp_tensor e)) with (n := n) (i1 := GRID_BLKSIZE * t + m) (i2 := ic * di + mi) (i3 := jc * dj + mj) (i4 := 0);
          try assumption; try (apply idx_range; assumption); try (split; lia); try lia.
        * unfold place. ring.
        * unfold val, spinor_grid. rewrite <- !len_nspinor. rewrite !idx_div, !idx_mod by assumption. 
          assert (G1 : (GRID_BLKSIZE * t + m) / GRID_BLKSIZE = t) by (rewrite (Z.mul_comm _ t); apply idx_div; assumption).
          assert (G2 : (GRID_BLKSIZE * t + m) mod GRID_BLKSIZE = m) by (rewrite (Z.mul_comm _ t); apply idx_mod; assumption).
          f_equal. apply pair_ext. intros a b Ha Hb. rewrite real_pick. unfold batch_grid. cbv zeta. rewrite G1, G2, (Z.mul_comm t GRID_BLKSIZE).
          unfold cpick. destruct spin; f_equal; apply (f_equal cr); apply f_equal; rewrite Enf; ring.
    - assert (D3 : exists n4', rd d 3 = Some n4').
      { unfold d. destruct dims; [apply HD3; reflexivity|exists 1; reflexivity]. }
      destruct D3 as [n4' D3].
      unfold c2s_grids_zset0, permuted. rewrite D0, D1, D2, D3.
      destruct (rd_arr4 (di * ci) (dj * cj) N 1) as [C0 [C1 [C2 C3]]]. rewrite C0, C1, C2, C3. cbn [bind].
      destruct (rd_arr4 n3 n1 n2 n4') as [E0 [E1 [E2 E3]]].
      apply (zset0_tail zero n3 n1 n2 1 N (di * ci) (dj * cj) 1 (ncomp_tensor e)) with (n3' := n2) (dims := Some (arr4 n3 n1 n2 n4')); try lia; try assumption; auto.
  Qed.
End D.

(** ** Two-electron driver *)
Section E.
  Context {F : Type} (zero one : F) (add mul sub_ : F -> F -> F) (opp : F -> F).
  Hypothesis Rth : ring_theory zero one add mul sub_ opp eq.
  Context (tJR tJI : Z -> F) (isz : F -> bool).
  Hypothesis Hisz : forall x, isz x = true -> x = zero.
  Notation Pair := (spinor_pair zero one add mul sub_ opp tJR tJI).
  Notation Phase := (with_phase zero one add mul sub_).
  Notation cr := (cre zero).
  Variable e : envs.
  Variables li lj lk ll ci cj ck cl : Z.
  Hypothesis SH : shells e li lj lk ll ci cj ck cl.
  Hypothesis Hli : 0 <= li <= 12.
  Hypothesis Hlj : 0 <= lj <= 12.
  Hypothesis Hlk : 0 <= lk <= 12.
  Hypothesis Hll : 0 <= ll <= 12.
  Hypothesis Hci : 0 <= ci.
  Hypothesis Hcj : 0 <= cj.
  Hypothesis Hck : 0 <= ck.
  Hypothesis Hcl : 0 <= cl.
  Hypothesis Efk : nfk e = ncart lk.
  Hypothesis Efl : nfl e = ncart ll.
  Variables (s1 p1 s2 p2 : bool) (ikp jkp kkp lkp : Z).
  Variables (gctr : arr F) (x : Z -> F).
  Notation di := (len_spinor ikp li).
  Notation dj := (len_spinor jkp lj).
  Notation dk := (len_spinor kkp lk).
  Notation dl := (len_spinor lkp ll).
  Notation fi := (ncart li).
  Notation fj := (ncart lj).
  Notation fk := (ncart lk).
  Notation fl := (ncart ll).
  Notation no := (di * fk * fl * dj).
  Notation ncall := (ci * cj * ck * cl).
  Notation e1 := (ncomp_e1 e).
  Notation e2 := (ncomp_e2 e).
  Hypothesis Enf : nf e = fi * fk * fl * fj.
  Hypothesis N1 : (if s1 then 4 else 1) <= e1.
  Hypothesis N2 : (if s2 then 4 else 1) <= e2.

  (** the batch of one second-electron component *)
  Definition yof (B : Z) : Z -> F := fun q => x (nf e * ncall * e1 * B + q).
  Definition st1 (B q X : Z) : cplx (F := F) :=
    stage1 zero one add mul sub_ opp tJR tJI e s1 p1 ikp jkp (yof B) q X.
  (** what the intermediate array holds for tensor component n *)
  Definition mid (n : Z) (a : Z) : F :=
    let r := a mod (no * 2) in let bq := a / (no * 2) in
    let B := n * e2 + bq / ncall in let q := bq mod ncall in
    if r <? no then fst (st1 B q r) else snd (st1 B q (r - no)).

  Lemma mid_at n m q X : 0 <= q < ncall -> 0 <= X < no ->
    mid n (no * 2 * ncall * m + no * 2 * q + X) = fst (st1 (n * e2 + m) q X) /\
    mid n (no * 2 * ncall * m + no * 2 * q + no + X) = snd (st1 (n * e2 + m) q X).
  Proof.
    intros Hq HX. unfold mid.
    assert (K : forall r, 0 <= r < no * 2 -> (no * 2 * ncall * m + no * 2 * q + r) / (no * 2) = m * ncall + q /\
                                             (no * 2 * ncall * m + no * 2 * q + r) mod (no * 2) = r).
    { intros r Hr. replace (no * 2 * ncall * m + no * 2 * q + r) with ((m * ncall + q) * (no * 2) + r) by ring.
      split; [apply idx_div; exact Hr|apply idx_mod; exact Hr]. }
    split.
    - destruct (K X ltac:(lia)) as [-> ->]. rewrite idx_div, idx_mod by exact Hq.
      replace (X <? no) with true by lia. reflexivity.
    - replace (no * 2 * ncall * m + no * 2 * q + no + X) with (no * 2 * ncall * m + no * 2 * q + (no + X)) by ring.
      destruct (K (no + X) ltac:(lia)) as [-> ->]. rewrite idx_div, idx_mod by exact Hq.
      replace (no + X <? no) with false by lia. replace (no + X - no) with X by ring. reflexivity.
  Qed.

  Lemma quad_range ic jc kc lc : 0 <= ic < ci -> 0 <= jc < cj -> 0 <= kc < ck -> 0 <= lc < cl ->
    0 <= ((lc * ck + kc) * cj + jc) * ci + ic < ncall.
  Proof.
    clear. intros A B C D. assert (0 <= lc * ck + kc < ck * cl) by nia.
    assert (0 <= (lc * ck + kc) * cj + jc < cj * (ck * cl)) by nia.
    replace ncall with (ci * (cj * (ck * cl))) by ring. nia.
  Qed.

  Lemma ncall_nn : 0 <= ncall.
  Proof. repeat apply Z.mul_nonneg_nonneg; assumption. Qed.
  Lemma no_nn : 0 <= no.
  Proof.
    pose proof (ncart_pos lk ltac:(lia)). pose proof (ncart_pos ll ltac:(lia)).
    repeat apply Z.mul_nonneg_nonneg; try lia; apply len_spinor_nonneg; lia.
  Qed.

  (** cells m*(no*2*ncall) .. of the intermediate array are filled for components below m *)
  Definition filled (n m : Z) (op : arr F) : Prop :=
    asize op = no * ncall * e2 * 2 /\
    forall a, 0 <= a < no * 2 * ncall * m -> acell op a = Some (mid n a).

  Lemma first_stage n nt : 0 <= n < nt ->
    reads gctr (nt * (nf e * ncall * e1 * e2)) x ->
    forall op, asize op = no * ncall * e2 * 2 ->
    wp (for_ 0 e2 (fun m s =>
          let '(opij, pg) := s in
          opij <- c2s_spinor_2e1 zero add mul sub_ opp isz tJR tJI s1 p1 ikp jkp opij (no * ncall * m * 2) (sub gctr pg) e ;;
          Some (opij, pg + nf e * ncall * e1)) (op, nf e * ncall * e1 * (n * e2)))
       (fun r => filled n e2 (fst r) /\ snd r = nf e * ncall * e1 * ((n + 1) * e2)).
  Proof.
    intros Hn Hx op Hop.
    pose proof ncall_nn as Pc. pose proof no_nn as Po.
    assert (PE1 : 0 <= e1) by (destruct s1; lia). assert (PE2 : 0 <= e2) by (destruct s2; lia).
    assert (Pnf : 0 <= nf e).
    { rewrite Enf. pose proof (ncart_pos li ltac:(lia)). pose proof (ncart_pos lj ltac:(lia)). pose proof (ncart_pos lk ltac:(lia)).
      pose proof (ncart_pos ll ltac:(lia)). repeat apply Z.mul_nonneg_nonneg; lia. }
    destruct SH as [Ei Ej Ek El Efi Efj Eci Ecj Eck Ecl]. rewrite cl_nc in Efi, Efj by lia.
    apply (wp_for (fun m r => filled n m (fst r) /\ snd r = nf e * ncall * e1 * (n * e2 + m))); [exact PE2| | |].
    - cbn [fst snd]. split; [|f_equal; ring]. split; [exact Hop|]. intros a Ha. exfalso. clear - Ha. lia.
    - intros m [o pg] Hm [[Fs Ff] Hpg]. cbn [fst snd] in *. subst pg.
      pose proof (c2s_spinor_2e1_ok zero one add mul sub_ opp Rth tJR tJI isz Hisz e s1 p1 ikp jkp
        (sub gctr (nf e * ncall * e1 * (n * e2 + m))) (yof (n * e2 + m))) as H'.
      specialize (H' ltac:(lia) ltac:(lia) ltac:(rewrite Efi, Ei, len_cart_ncart by lia; reflexivity) ltac:(rewrite Efj, Ej, len_cart_ncart by lia; reflexivity)).
      pose proof (ncart_pos lk ltac:(lia)) as Pk. pose proof (ncart_pos ll ltac:(lia)) as Pl.
      specialize (H' ltac:(rewrite Efk; lia) ltac:(rewrite Efl; lia) o (no * ncall * m * 2)).
      unfold holds1 in H'. rewrite Ei, Ej, Efi, Efj, Eci, Ecj, Eck, Ecl, Efk, Efl in H'.
      apply wp_bind. eapply wp_mono; [apply H'|].
      + exact Pc.
      + clear - Po Pc Hm. apply Z.mul_nonneg_nonneg; [|lia]. apply Z.mul_nonneg_nonneg; [|lia].
        apply Z.mul_nonneg_nonneg; [exact Po|exact Pc].
      + rewrite Fs. assert (0 <= no * ncall) by (apply Z.mul_nonneg_nonneg; lia).
        set (W := no * ncall) in *. replace (no * 2 * ncall) with (W * 2) by (unfold W; ring). clear - Hm H. nia.
      + exact Enf.
      + unfold yof. set (W := nf e * ncall) in *. assert (PW : 0 <= W) by (apply Z.mul_nonneg_nonneg; lia).
        assert (XX : nspin s1 * W <= W * e1) by (unfold nspin; clear - N1 PW; destruct s1; nia).
        assert (B : 0 <= W * e1) by (apply Z.mul_nonneg_nonneg; lia).
        assert (Hb : n * e2 + m + 1 <= nt * e2) by (clear - Hn Hm; nia).
        assert (Hb0 : 0 <= n * e2 + m) by (clear - Hn Hm; nia).
        eapply reads_sub; [apply Z.mul_nonneg_nonneg; lia| |exact Hx].
        replace (nt * (W * e1 * e2)) with (W * e1 * (nt * e2)) by ring. clear - XX B Hb. set (V := W * e1) in *. nia.
      + intros r [R1 [R2 R3]]. cbn [wp fst snd]. split; [|ring]. split; [congruence|].
        intros a Ha. destruct (Z_lt_le_dec a (no * 2 * ncall * m)) as [L|L].
        * rewrite R2; [apply Ff; lia|]. replace (no * ncall * m * 2) with (no * 2 * ncall * m) by ring. lia.
        * set (W := no * 2) in *.
          assert (PW : 0 < W). { destruct (Z_le_gt_dec W 0); [|lia]. exfalso. assert (W = 0) by lia. rewrite H in Ha. lia. }
          set (b := a - W * ncall * m).
          assert (Hb : 0 <= b < ncall * W) by (unfold b; clear - Ha L; nia).
          pose proof (Z_div_mod_eq_full b W) as Ed. pose proof (Z.mod_pos_bound b W PW) as Em.
          assert (Hq : 0 <= b / W < ncall).
          { split; [apply Z.div_pos; lia|]. apply Z.div_lt_upper_bound; lia. }
          assert (Ea : a = W * ncall * m + W * (b / W) + b mod W) by (unfold b in *; lia).
          destruct (Z_lt_le_dec (b mod W) no) as [G|G].
          -- destruct (R3 (b / W) (b mod W) Hq ltac:(lia)) as [Rf _].
             destruct (mid_at n m (b / W) (b mod W) Hq ltac:(lia)) as [Mf _]. fold W in Mf.
             rewrite <- Ea in Mf. rewrite Mf. unfold st1. rewrite <- Rf. f_equal. rewrite Ea at 1. unfold W. ring.
          -- assert (HWW : W = no * 2) by reflexivity.
             assert (Hr : 0 <= b mod W - no < no) by (clear - Em G HWW; lia).
             destruct (R3 (b / W) (b mod W - no) Hq Hr) as [_ Rf].
             destruct (mid_at n m (b / W) (b mod W - no) Hq Hr) as [_ Mf]. fold W in Mf.
             replace (W * ncall * m + W * (b / W) + no + (b mod W - no)) with a in Mf by lia.
             rewrite Mf. unfold st1. rewrite <- Rf. f_equal. rewrite Ea at 1. unfold W. ring.
    - intros [r pg] [H1 H2]. cbn [fst snd] in *. split; [exact H1|]. rewrite H2. ring.
  Qed.

  Variables (hv : bool) (dims : option (arr Z)) (out : arr F).
  Variables n1 n2 n3 n4 : Z.

  Lemma spinor_2e_tail :
    0 <= ncomp_tensor e ->
    di * ci <= n1 -> dj * cj <= n2 -> dk * ck <= n3 -> dl * cl <= n4 ->
    dims_are dims 4 [n1; n2; n3; n4] [di * ci; dj * cj; dk * ck; dl * cl] ->
    room (asize out) (ncomp_tensor e) (n1 * 2) n2 n3 n4 (di * ci * 2) (dj * cj) (dk * ck) (dl * cl) ->
    (hv = true -> reads gctr (ncomp_tensor e * (nf e * ci * cj * ck * cl * e1 * e2)) x) ->
    exists out', CINT2e_spinor_drv_tail zero add mul sub_ opp isz tJR tJI s1 p1 s2 p2 ikp jkp kkp lkp hv dims out gctr e = Some out' /\
      stored_block out out' (ncomp_tensor e) (n1 * 2) n2 n3 n4 (di * ci * 2) (dj * cj) (dk * ck) (dl * cl)
        (either zero hv (fun n I J K L => spinor_2e zero one add mul sub_ opp tJR tJI s1 p1 s2 p2 ikp li jkp lj kkp lk lkp ll
                                            x ci cj ck cl e1 e2 n I J K L)).
  Proof.
    intros Hnt M1 M2 M3 M4 HD Hsz Hx.
    pose proof ncall_nn as Pc. pose proof no_nn as Po.
    destruct SH as [Ei Ej Ek El Efi Efj Eci Ecj Eck Ecl].
    assert (Pi : 0 <= di) by (apply len_spinor_nonneg; lia). assert (Pj : 0 <= dj) by (apply len_spinor_nonneg; lia).
    assert (Pk : 0 <= dk) by (apply len_spinor_nonneg; lia). assert (Pl : 0 <= dl) by (apply len_spinor_nonneg; lia).
    assert (Q1 : 0 <= di * ci) by (apply Z.mul_nonneg_nonneg; lia).
    assert (Q2 : 0 <= dj * cj) by (apply Z.mul_nonneg_nonneg; lia).
    assert (Q3 : 0 <= dk * ck) by (apply Z.mul_nonneg_nonneg; lia).
    assert (Q4 : 0 <= dl * cl) by (apply Z.mul_nonneg_nonneg; lia).
    unfold CINT2e_spinor_drv_tail. rewrite Ei, Ej, Ek, El, Eci, Ecj, Eck, Ecl, Efk, Efl.
    pose proof (dims4 _ _ _ _ _ _ _ _ _ HD) as [D0 [D1 [D2 D3]]].
    set (d := match dims with None => _ | Some d => d end) in *.
    unfold nout4. rewrite D0, D1, D2, D3. cbn [bind].
    set (val := fun n I J K L => spinor_2e zero one add mul sub_ opp tJR tJI s1 p1 s2 p2 ikp li jkp lj kkp lk lkp ll x ci cj ck cl e1 e2 n I J K L).
    destruct hv.
    - specialize (Hx eq_refl).
      replace (di * ci * fk * ck * fl * cl * (dj * cj)) with (no * ncall) by ring.
      replace (nf e * ci * cj * ck * cl * e1) with (nf e * ncall * e1) in * by ring.
      set (body := fun (n : Z) (s : arr F * (arr F * Z)) => _).
      pose proof (wp_puts_stored (fun out => r <- for_ 0 (ncomp_tensor e) body (out, (uninit (no * ncall * e2 * 2), 0)) ;; Some (fst r))) as G.
      unfold either. apply G with (val := zval5 val); try lia; try assumption. clear G.
      eapply puts_iff.
      + apply (puts_run _ _ (fun x => exists n, 0 <= n < ncomp_tensor e /\ blkO (n1 * n2 * n3 * n4 * n * 2) (n1 * 2) n2 n3 (di * ci * 2) (dj * cj) (dk * ck) (dl * cl) x)
                 (fun s => asize (fst s) = no * ncall * e2 * 2 /\ snd s = nf e * ncall * e1 * (0 * e2))
                 (fun s => asize (fst s) = no * ncall * e2 * 2 /\ snd s = nf e * ncall * e1 * (ncomp_tensor e * e2))).
        * apply (putsS_for _ _ (fun n => blkO (n1 * n2 * n3 * n4 * n * 2) (n1 * 2) n2 n3 (di * ci * 2) (dj * cj) (dk * ck) (dl * cl))
                   (fun n s => asize (fst s) = no * ncall * e2 * 2 /\ snd s = nf e * ncall * e1 * (n * e2))); [exact Hnt|].
          intros n Hn a [op pg] Ha [Ho Hp]. cbn [fst snd] in Ho, Hp. subst pg. unfold body.
          apply wp_bind. eapply wp_mono; [apply (first_stage n (ncomp_tensor e) Hn Hx op Ho)|].
          intros [r pg] [[R1 R2] Hpg]. cbn [fst snd] in *. 
          assert (X : puts (asize out) (blkV (ncomp_tensor e) (n1 * 2) n2 n3 n4 (di * ci * 2) (dj * cj) (dk * ck) (dl * cl) (zval5 val))
             (blkO (n1 * n2 * n3 * n4 * n * 2) (n1 * 2) n2 n3 (di * ci * 2) (dj * cj) (dk * ck) (dl * cl))
             (fun o => c2s_spinor_2e2 zero add mul sub_ opp tJR tJI s2 p2 ikp jkp kkp lkp o (n1 * n2 * n3 * n4 * n) r d e)).
          { pose proof (c2s_spinor_2e2_puts zero one add mul sub_ opp Rth tJR tJI isz Hisz e (asize out)
              (blkV (ncomp_tensor e) (n1 * 2) n2 n3 n4 (di * ci * 2) (dj * cj) (dk * ck) (dl * cl) (zval5 val))
              s2 p2 ikp jkp kkp lkp d n1 n2 n3 n4 D0 D1 D2 D3 r (mid n)) as H'.
            specialize (H' ltac:(lia) ltac:(lia) ltac:(lia) ltac:(lia) ltac:(rewrite Efk, Ek, len_cart_ncart by lia; reflexivity)
              ltac:(rewrite Efl, El, len_cart_ncart by lia; reflexivity)).
            rewrite Ei, Ej, Ek, El, Efk, Efl, Eci, Ecj, Eck, Ecl in H'.
            specialize (H' Hci Hcj Hck Hcl (n1 * n2 * n3 * n4 * n)). apply H'; clear H'.
            - assert (PW : 0 <= no * 2 * ncall) by (apply Z.mul_nonneg_nonneg; lia).
              assert (XX : nspin s2 * (no * 2 * ncall) <= no * 2 * ncall * e2) by (unfold nspin; clear - N2 PW; destruct s2; nia).
              intros q Hq. unfold rd, inb. rewrite R1.
              replace ((0 <=? q) && (q <? no * ncall * e2 * 2)) with true.
              + apply R2. lia.
              + replace (no * ncall * e2 * 2) with (no * 2 * ncall * e2) by ring. lia.
            - intros lc kc jc ic ml mk mj mi Hlc Hkc Hjc Hic Hml Hmk Hmj Hmi.
              apply (zok_at n1 n2 n3 n4 _ _ _ _ (ncomp_tensor e)) with (n := n) (i1 := ic * di + mi) (i2 := jc * dj + mj) (i3 := kc * dk + mk) (i4 := lc * dl + ml);
                try assumption; try (apply idx_range; assumption); try (split; lia); try lia.
              + unfold place. ring.
              + unfold val, spinor_2e. rewrite <- !len_nspinor. rewrite !idx_div, !idx_mod by assumption. f_equal.
                apply pair_ext. intros c dd Hc Hd.
                rewrite ?len_cart_ncart in Hc, Hd by lia.
                set (q := ((lc * ck + kc) * cj + jc) * ci + ic).
                assert (Hq : 0 <= q < ncall) by (apply (quad_range ic jc kc lc); assumption).
                set (XX := ((mj * fl + dd) * fk + c) * di + mi).
                assert (Hkl : 0 <= dd * fk + c < fk * fl) by (clear - Hc Hd; nia).
                assert (HX : 0 <= XX < no).
                { unfold XX. replace ((mj * fl + dd) * fk + c) with (mj * (fk * fl) + (dd * fk + c)) by ring.
                  clear - Hkl Hmj Hmi. set (S := fk * fl) in *. set (k := dd * fk + c) in *.
                  replace (di * fk * fl * dj) with (dj * S * di) by (unfold S; ring). assert (0 <= mj * S + k < dj * S) by nia. nia. }
                assert (V : forall m, zval lk di (fl * dj) (mid n) (no * 2 * q + m * (no * 2 * ncall)) XX = st1 (n * e2 + m) q XX).
                { intros m. unfold zval. rewrite len_cart_ncart by lia. destruct (mid_at n m q XX Hq HX) as [Mf Ms].
                  rewrite (surjective_pairing (st1 _ _ _)). rewrite <- Mf, <- Ms. f_equal; f_equal; ring. }
                assert (V' : forall m, st1 (n * e2 + m) q XX =
                   Phase p1 (Pair ikp li jkp lj mi mj (fun a b => cpick zero s1 (fun c1 =>
                     cr (batch4 x (fi * fk * fl * fj) ci cj ck cl ((n * e2 + m) * e1 + c1) ic jc kc lc (((b * fl + dd) * fk + c) * fi + a)))))).
                { intros m. unfold st1. pose proof (stage1_at zero one add mul sub_ opp tJR tJI e s1 p1 ikp jkp (yof (n * e2 + m)) q mj (dd * fk + c) mi) as T.
                  rewrite Ei, Ej, Efk, Efl, Eci, Ecj, Eck, Ecl in T. specialize (T Hkl Hmi).
                  replace ((mj * (fk * fl) + (dd * fk + c)) * di + mi) with XX in T by (unfold XX; ring). rewrite T. f_equal.
                  apply pair_ext. intros a0 b0 Ha0 Hb0. rewrite real_pick. unfold batch4, yof.
                  rewrite Efi, cl_nc by lia.
                  unfold cpick. destruct s1; f_equal; apply (f_equal cr); apply f_equal; unfold q; rewrite Enf; ring. }
                unfold cplx_in, cpick. pose proof (V 0) as V0. pose proof (V 1) as V1. pose proof (V 2) as V2. pose proof (V 3) as V3.
                rewrite (V' 0) in V0. rewrite (V' 1) in V1. rewrite (V' 2) in V2. rewrite (V' 3) in V3.
                replace (no * 2 * q + 0 * (no * 2 * ncall)) with (no * 2 * q) in V0 by ring.
                replace (no * 2 * q + 1 * (no * 2 * ncall)) with (no * 2 * q + no * 2 * ncall) in V1 by ring.
                replace (no * 2 * q + 2 * (no * 2 * ncall)) with (no * 2 * q + no * 2 * ncall + no * 2 * ncall) in V2 by ring.
                replace (no * 2 * q + 3 * (no * 2 * ncall)) with (no * 2 * q + no * 2 * ncall + no * 2 * ncall + no * 2 * ncall) in V3 by ring.
                destruct s2.
                * f_equal; assumption.
                * f_equal. exact V0. }
          apply wp_bind. eapply wp_mono; [apply X; exact Ha|]. intros b Hb. cbn [wp fst snd]. auto.
        * cbn [fst snd uninit asize]. split; [reflexivity|ring].
      + intros y. unfold blkW. split.
        * intros [n [i1 [i2 [i3 [i4 [Hn [A1 [A2 [A3 [A4 E]]]]]]]]]]. exists n. split; [exact Hn|].
          replace (n1 * n2 * n3 * n4 * n * 2) with (n1 * 2 * n2 * n3 * n4 * n) by ring.
          apply blkO_place. exists i1, i2, i3, i4. auto.
        * intros [n [Hn Hb]]. replace (n1 * n2 * n3 * n4 * n * 2) with (n1 * 2 * n2 * n3 * n4 * n) in Hb by ring.
          apply blkO_place in Hb. destruct Hb as [i1 [i2 [i3 [i4 [A1 [A2 [A3 [A4 E]]]]]]]].
          exists n, i1, i2, i3, i4. auto 10.
    - apply (zset0_tail zero n1 n2 n3 n4 (di * ci) (dj * cj) (dk * ck) (dl * cl) (ncomp_tensor e)) with (n3' := n3); try lia; try assumption; auto.
  Qed.
End E.
