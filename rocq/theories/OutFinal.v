(** OutFinal.v — the driver tails: what ends up in the caller's array. *)
From Coq Require Import Ring.
From Verif Require Import Base BasModel FblasModel FblasSpec EnvModel OutModel OutSpec OutRules OutProof OutNest SphProof SphOut SphOut2.

Lemma blkO_n3 o n1 n2 n3 n3' m1 m2 m3 x : blkO o n1 n2 n3 m1 m2 m3 1 x <-> blkO o n1 n2 n3' m1 m2 m3 1 x.
Proof.
  unfold blkO. split; intros [i4 [H4 [i3 [H3 [i2 [H2 [i1 [H1 ->]]]]]]]]; exists i4; (split; [exact H4|]);
    exists i3; (split; [exact H3|]); exists i2; (split; [exact H2|]); exists i1; (split; [exact H1|]);
    replace i4 with 0 by lia; ring.
Qed.

(** what the environments of the drivers have in common *)
Record shells (e : envs) (li lj lk ll ci cj ck cl : Z) : Prop := {
  sh_li : i_l e = li; sh_lj : j_l e = lj; sh_lk : k_l e = lk; sh_ll : l_l e = ll;
  sh_fi : nfi e = CINTlen_cart li; sh_fj : nfj e = CINTlen_cart lj;
  sh_ci : i_ctr e = ci; sh_cj : j_ctr e = cj; sh_ck : k_ctr e = ck; sh_cl : l_ctr e = cl }.

Section Tail.
  Context {F : Type} (zero : F).
  Variables n1 n2 n3 n4 m1 m2 m3 m4 ncomp : Z.
  Hypothesis L1 : 0 <= m1 <= n1.
  Hypothesis L2 : 0 <= m2 <= n2.
  Hypothesis L3 : 0 <= m3 <= n3.
  Hypothesis L4 : 0 <= m4 <= n4.
  Notation sb := (fun out out' v => stored_block out out' ncomp n1 n2 n3 n4 m1 m2 m3 m4 v).

  (** a per-component routine, repeated for every component *)
  Lemma comp_loop (out : arr F) v c :
    room (asize out) ncomp n1 n2 n3 n4 m1 m2 m3 m4 ->
    (forall n, 0 <= n < ncomp -> puts (asize out) (blkV ncomp n1 n2 n3 n4 m1 m2 m3 m4 v)
       (blkO (n1 * n2 * n3 * n4 * n) n1 n2 n3 m1 m2 m3 m4) (c n)) ->
    exists out', for_ 0 ncomp c out = Some out' /\ sb out out' v.
  Proof.
    intros Hsz H. apply (wp_puts_stored (fun out => for_ 0 ncomp c out)); try lia; try assumption.
    eapply puts_iff.
    - apply (puts_for _ _ (fun n => blkO (n1 * n2 * n3 * n4 * n) n1 n2 n3 m1 m2 m3 m4)). exact H.
    - intros x. unfold blkW. split.
      + intros [n [i1 [i2 [i3 [i4 [Hn [A1 [A2 [A3 [A4 E]]]]]]]]]]. exists n. split; [exact Hn|].
        apply blkO_place. exists i1, i2, i3, i4. auto.
      + intros [n [Hn Hb]]. apply blkO_place in Hb. destruct Hb as [i1 [i2 [i3 [i4 [A1 [A2 [A3 [A4 E]]]]]]]].
        exists n, i1, i2, i3, i4. auto 10.
  Qed.

  Lemma blkV_at sz (v : Z -> Z -> Z -> Z -> Z -> F) n i1 i2 i3 i4 x w :
    room sz ncomp n1 n2 n3 n4 m1 m2 m3 m4 ->
    0 <= n < ncomp -> 0 <= i1 < m1 -> 0 <= i2 < m2 -> 0 <= i3 < m3 -> 0 <= i4 < m4 ->
    x = place n1 n2 n3 n4 n i1 i2 i3 i4 -> w = v n i1 i2 i3 i4 ->
    0 <= x < sz /\ blkV ncomp n1 n2 n3 n4 m1 m2 m3 m4 v x w.
  Proof.
    intros Hsz Hn A1 A2 A3 A4 -> ->. split.
    - pose proof (place_range n1 n2 n3 n4 m1 m2 m3 m4 ncomp n i1 i2 i3 i4).
      pose proof (Hsz n i1 i2 i3 i4 Hn A1 A2 A3 A4). lia.
    - exists n, i1, i2, i3, i4. auto 10.
  Qed.

  Lemma zero_ok sz n x : room sz ncomp n1 n2 n3 n4 m1 m2 m3 m4 -> 0 <= n < ncomp ->
    blkO (n1 * n2 * n3 * n4 * n) n1 n2 n3 m1 m2 m3 m4 x ->
    0 <= x < sz /\ blkV ncomp n1 n2 n3 n4 m1 m2 m3 m4 (fun _ _ _ _ _ => zero) x zero.
  Proof.
    intros Hsz Hn Hx. apply blkO_place in Hx. destruct Hx as [i1 [i2 [i3 [i4 [A1 [A2 [A3 [A4 E]]]]]]]].
    apply (blkV_at sz _ n i1 i2 i3 i4); auto.
  Qed.

  (** the dims array has at least four readable entries, the fourth unused by the copy *)
  Lemma dset0_tail (dims counts : arr Z) (alias : bool) (n3' : Z) (out : arr F) :
    counts = arr4 m1 m2 m3 m4 ->
    rd dims 0 = Some n1 -> rd dims 1 = Some n2 -> rd dims 2 = Some n3' -> (n3' = n3 \/ m4 = 1) ->
    (alias = true -> dims = counts) ->
    room (asize out) ncomp n1 n2 n3 n4 m1 m2 m3 m4 ->
    exists out', for_ 0 ncomp (fun n out => c2s_dset0 zero out (n1 * n2 * n3 * n4 * n) dims counts alias) out = Some out' /\
      sb out out' (fun _ _ _ _ _ => zero).
  Proof.
    intros EC D0 D1 D2 Hn3 Hal Hsz. apply comp_loop; [exact Hsz|]. intros n Hn.
    destruct (rd_arr4 m1 m2 m3 m4) as [C0 [C1 [C2 C3]]]. rewrite <- EC in C0, C1, C2, C3.
    destruct alias.
    - specialize (Hal eq_refl). subst dims. rewrite C0 in D0. rewrite C1 in D1. rewrite C2 in D2.
      injection D0 as D0. injection D1 as D1. injection D2 as D2.
      eapply puts_iff.
      + apply (dset0_alias_puts zero (asize out) _ (n1 * n2 * n3 * n4 * n) counts m1 m2 m3 m4); try lia; auto.
        intros x Hx. apply (zero_ok (asize out) n x Hsz Hn). rewrite <- D0, <- D1 in *.
        destruct Hn3 as [E|E]; [rewrite <- E, <- D2 in *; exact Hx|rewrite E in *; eapply blkO_n3; exact Hx].
      + intros x. rewrite D0, D1. destruct Hn3 as [E|E].
        * rewrite D2, E. reflexivity.
        * rewrite E. apply blkO_n3.
    - eapply puts_iff.
      + apply (dset0_dims_puts zero (asize out) _ (n1 * n2 * n3 * n4 * n) dims counts n1 n2 n3' m1 m2 m3 m4); auto; [lia|].
        intros x Hx. apply (zero_ok (asize out) n x Hsz Hn).
        destruct Hn3 as [E|E]; [rewrite E in Hx; exact Hx|rewrite E in *; eapply blkO_n3; exact Hx].
      + intros x. destruct Hn3 as [E|E]; [rewrite E; reflexivity|rewrite E; apply blkO_n3].
  Qed.
End Tail.

Lemma dims4 dims n1 n2 n3 n4 m1 m2 m3 m4 : dims_are dims 4 [n1; n2; n3; n4] [m1; m2; m3; m4] ->
  let d := match dims with None => arr4 m1 m2 m3 m4 | Some d => d end in
  rd d 0 = Some n1 /\ rd d 1 = Some n2 /\ rd d 2 = Some n3 /\ rd d 3 = Some n4.
Proof.
  destruct dims as [d|]; cbn [dims_are].
  - intros H. repeat split; [exact (H 0%nat ltac:(lia))|exact (H 1%nat ltac:(lia))|exact (H 2%nat ltac:(lia))|exact (H 3%nat ltac:(lia))].
  - intros E. injection E as -> -> -> ->. apply rd_arr4.
Qed.
Lemma dims3 dims n1 n2 n3 m1 m2 m3 : dims_are dims 3 [n1; n2; n3] [m1; m2; m3] ->
  let d := match dims with None => arr4 m1 m2 m3 1 | Some d => d end in
  rd d 0 = Some n1 /\ rd d 1 = Some n2 /\ rd d 2 = Some n3.
Proof.
  destruct dims as [d|]; cbn [dims_are].
  - intros H. repeat split; [exact (H 0%nat ltac:(lia))|exact (H 1%nat ltac:(lia))|exact (H 2%nat ltac:(lia))].
  - intros E. injection E as -> -> ->. repeat split; reflexivity.
Qed.
Lemma dims2 dims n1 n2 m1 m2 : dims_are dims 2 [n1; n2] [m1; m2] ->
  let d := match dims with None => arr4 m1 m2 1 1 | Some d => d end in
  rd d 0 = Some n1 /\ rd d 1 = Some n2.
Proof.
  destruct dims as [d|]; cbn [dims_are].
  - intros H. repeat split; [exact (H 0%nat ltac:(lia))|exact (H 1%nat ltac:(lia))].
  - intros E. injection E as -> ->. repeat split; reflexivity.
Qed.

Lemma idx_range d c t i : 0 <= t < c -> 0 <= i < d -> 0 <= t * d + i < d * c.
Proof. intros. nia. Qed.

(** the matrix of shell l, with the two spellings of its row length *)
Lemma app_conv {F} (zero : F) (add mul : F -> F -> F) coef l m x y : 0 <= l <= 15 ->
  (forall a, 0 <= a < CINTlen_cart l -> x a = y a) ->
  apply_T zero add mul coef c2s_off len_cart l m x = apply_T zero add mul coef c2s_off CINTlen_cart l m y.
Proof.
  intros Hl H. unfold apply_T, Tmat. rewrite (len_cart_eq l Hl).
  apply lsum_ext. intros a Ha. rewrite H by exact Ha. reflexivity.
Qed.

Section Drv.
  Context {F : Type} (zero one : F) (add mul sub_ : F -> F -> F) (opp : F -> F).
  Context (coef : Z -> F).
  Variable e : envs.
  Variables li lj lk ll ci cj ck cl : Z.
  Hypothesis SH : shells e li lj lk ll ci cj ck cl.
  Hypothesis Hli : 0 <= li <= 15.
  Hypothesis Hlj : 0 <= lj <= 15.
  Hypothesis Hlk : 0 <= lk <= 15.
  Hypothesis Hll : 0 <= ll <= 15.
  Hypothesis Hci : 0 <= ci.
  Hypothesis Hcj : 0 <= cj.
  Hypothesis Hck : 0 <= ck.
  Hypothesis Hcl : 0 <= cl.
  Variables (hv : bool) (dims : option (arr Z)) (out gctr : arr F) (x : Z -> F).
  Variables n1 n2 n3 n4 : Z.
  Notation fi := (CINTlen_cart li).
  Notation fj := (CINTlen_cart lj).
  Notation fk := (CINTlen_cart lk).
  Notation fl := (CINTlen_cart ll).
  Notation si := (li * 2 + 1).
  Notation sj := (lj * 2 + 1).
  Notation sk := (lk * 2 + 1).
  Notation sl := (ll * 2 + 1).

  Lemma lcp l : 0 <= l <= 15 -> 1 <= CINTlen_cart l.
  Proof. intros. apply len_cart_pos. lia. Qed.

  (** ** Four indices *)
  Hypothesis Efk : nfk e = fk.
  Notation ncomp4 := (ncomp_e1 e * ncomp_e2 e * ncomp_tensor e).

  Lemma tail_2e_cart :
    nfl e = fl -> nf e = fi * fk * fl * fj ->
    fi * ci <= n1 -> fj * cj <= n2 -> fk * ck <= n3 -> fl * cl <= n4 ->
    dims_are dims 4 [n1; n2; n3; n4] [fi * ci; fj * cj; fk * ck; fl * cl] ->
    room (asize out) ncomp4 n1 n2 n3 n4 (fi * ci) (fj * cj) (fk * ck) (fl * cl) ->
    (hv = true -> reads gctr (ncomp4 * (nf e * ci * cj * ck * cl)) x) ->
    exists out', CINT2e_drv_tail zero add mul coef CartK hv dims out gctr e = Some out' /\
      stored_block out out' ncomp4 n1 n2 n3 n4 (fi * ci) (fj * cj) (fk * ck) (fl * cl)
        (fun n I J K L => if hv then cart4 x fi fj fk fl ci cj ck cl n I J K L else zero).
  Proof.
    intros Efl Enf M1 M2 M3 M4 HD Hsz Hx. destruct SH as [Ei Ej Ek El Efi Efj Eci Ecj Eck Ecl].
    pose proof (lcp li Hli). pose proof (lcp lj Hlj). pose proof (lcp lk Hlk). pose proof (lcp ll Hll).
    unfold CINT2e_drv_tail, drv_tail. rewrite Efi, Efj, Efk, Efl, Eci, Ecj, Eck, Ecl.
    pose proof (dims4 _ _ _ _ _ _ _ _ _ HD) as [D0 [D1 [D2 D3]]].
    set (d := match dims with None => _ | Some d => d end) in *.
    unfold nout4. rewrite D0, D1, D2, D3. cbn [bind].
    assert (P1 : 0 <= fi * ci) by (apply Z.mul_nonneg_nonneg; lia).
    assert (P2 : 0 <= fj * cj) by (apply Z.mul_nonneg_nonneg; lia).
    assert (P3 : 0 <= fk * ck) by (apply Z.mul_nonneg_nonneg; lia).
    assert (P4 : 0 <= fl * cl) by (apply Z.mul_nonneg_nonneg; lia).
    assert (Pnc : 0 <= nf e * ci * cj * ck * cl) by (rewrite Enf; repeat apply Z.mul_nonneg_nonneg; lia).
    destruct hv.
    - apply comp_loop; try lia; try assumption. intros n Hn. specialize (Hx eq_refl).
      pose proof (c2s_cart_2e1_puts (asize out)
        (blkV ncomp4 n1 n2 n3 n4 (fi * ci) (fj * cj) (fk * ck) (fl * cl)
           (fun n I J K L => cart4 x fi fj fk fl ci cj ck cl n I J K L))
        e d n1 n2 n3 n4 D0 D1 (sub gctr (nf e * ci * cj * ck * cl * n))
        (fun q => x (nf e * ci * cj * ck * cl * n + q))) as H'.
      rewrite Efi, Efj, Efk, Efl, Eci, Ecj, Eck, Ecl in H'. apply H'; clear H'; try assumption; try lia.
      + destruct (pb _ n (nf e * ci * cj * ck * cl) ncomp4 eq_refl Pnc Hn) as [B1 B2].
        eapply reads_sub; [exact B1|exact B2|]. rewrite Z.mul_comm. exact Hx.
      + intros lc kc jc ic l k j i Hlc Hkc Hjc Hic Hl Hk Hj Hi. cbv zeta.
        apply (blkV_at n1 n2 n3 n4 _ _ _ _ ncomp4) with (n := n) (i1 := ic * fi + i) (i2 := jc * fj + j) (i3 := kc * fk + k) (i4 := lc * fl + l);
          try assumption; try (apply idx_range; assumption); try (split; lia).
        * unfold place. ring.
        * unfold cart4, batch4. rewrite !idx_div, !idx_mod by assumption. f_equal. rewrite Enf. ring.
    - apply (dset0_tail zero n1 n2 n3 n4 _ _ _ _ ncomp4) with (n3' := n3); try lia; try assumption; auto.
      unfold d. destruct dims; [discriminate|reflexivity].
  Qed.

  Hypothesis Rth : ring_theory zero one add mul sub_ opp eq.
  Hypothesis Htab : table_ok zero one coef.

  Lemma tail_2e_sph :
    nfl e = fl -> nf e = fi * fk * fl * fj ->
    si * ci <= n1 -> sj * cj <= n2 -> sk * ck <= n3 -> sl * cl <= n4 ->
    dims_are dims 4 [n1; n2; n3; n4] [si * ci; sj * cj; sk * ck; sl * cl] ->
    room (asize out) ncomp4 n1 n2 n3 n4 (si * ci) (sj * cj) (sk * ck) (sl * cl) ->
    (hv = true -> reads gctr (ncomp4 * (nf e * ci * cj * ck * cl)) x) ->
    exists out', CINT2e_drv_tail zero add mul coef SphK hv dims out gctr e = Some out' /\
      stored_block out out' ncomp4 n1 n2 n3 n4 (si * ci) (sj * cj) (sk * ck) (sl * cl)
        (fun n I J K L => if hv then
           sph_ijkl zero add mul coef c2s_off CINTlen_cart li lj lk ll
             (batch4 x (fi * fk * fl * fj) ci cj ck cl n (I / si) (J / sj) (K / sk) (L / sl))
             (I mod si) (J mod sj) (K mod sk) (L mod sl) else zero).
  Proof.
    intros Efl Enf M1 M2 M3 M4 HD Hsz Hx. destruct SH as [Ei Ej Ek El Efi Efj Eci Ecj Eck Ecl].
    pose proof (lcp li Hli). pose proof (lcp lj Hlj). pose proof (lcp lk Hlk). pose proof (lcp ll Hll).
    unfold CINT2e_drv_tail, drv_tail. rewrite Ei, Ej, Ek, El, Eci, Ecj, Eck, Ecl.
    pose proof (dims4 _ _ _ _ _ _ _ _ _ HD) as [D0 [D1 [D2 D3]]].
    set (d := match dims with None => _ | Some d => d end) in *.
    unfold nout4. rewrite D0, D1, D2, D3. cbn [bind].
    assert (P1 : 0 <= si * ci) by (apply Z.mul_nonneg_nonneg; lia).
    assert (P2 : 0 <= sj * cj) by (apply Z.mul_nonneg_nonneg; lia).
    assert (P3 : 0 <= sk * ck) by (apply Z.mul_nonneg_nonneg; lia).
    assert (P4 : 0 <= sl * cl) by (apply Z.mul_nonneg_nonneg; lia).
    assert (Pnc : 0 <= nf e * ci * cj * ck * cl) by (rewrite Enf; repeat apply Z.mul_nonneg_nonneg; lia).
    destruct hv.
    - apply comp_loop; try lia; try assumption. intros n Hn. specialize (Hx eq_refl).
      pose proof (c2s_sph_2e1_puts zero one add mul sub_ opp Rth coef Htab (asize out)
        (blkV ncomp4 n1 n2 n3 n4 (si * ci) (sj * cj) (sk * ck) (sl * cl)
           (fun n I J K L => sph_ijkl zero add mul coef c2s_off CINTlen_cart li lj lk ll
             (batch4 x (fi * fk * fl * fj) ci cj ck cl n (I / si) (J / sj) (K / sk) (L / sl))
             (I mod si) (J mod sj) (K mod sk) (L mod sl)))
        e d n1 n2 n3 n4 D0 D1 (sub gctr (nf e * ci * cj * ck * cl * n))
        (fun q => x (nf e * ci * cj * ck * cl * n + q))) as H'.
      rewrite Ei, Ej, Ek, El, Efi, Efj, Efk, Efl, Eci, Ecj, Eck, Ecl in H'.
      apply H'; clear H'; try assumption; try lia; try (symmetry; apply len_cart_eq; assumption).
      + destruct (pb _ n (nf e * ci * cj * ck * cl) ncomp4 eq_refl Pnc Hn) as [B1 B2].
        eapply reads_sub; [exact B1|exact B2|]. rewrite Z.mul_comm. exact Hx.
      + intros lc kc jc ic l k j i Hlc Hkc Hjc Hic Hl Hk Hj Hi. cbv zeta.
        apply (blkV_at n1 n2 n3 n4 _ _ _ _ ncomp4) with (n := n) (i1 := ic * si + i) (i2 := jc * sj + j) (i3 := kc * sk + k) (i4 := lc * sl + l);
          try assumption; try (apply idx_range; assumption); try (split; lia).
        * unfold place. ring.
        * rewrite !idx_div, !idx_mod by assumption. unfold sph_ijkl.
          apply app_conv; [assumption|]. intros a Ha. apply app_conv; [assumption|]. intros c Hc.
          apply app_conv; [assumption|]. intros d' Hd'. apply app_conv; [assumption|]. intros b Hb.
          rewrite !len_cart_eq by assumption. unfold batch4. f_equal. rewrite Enf. ring.
    - apply (dset0_tail zero n1 n2 n3 n4 _ _ _ _ ncomp4) with (n3' := n3); try lia; try assumption; auto.
      unfold d. destruct dims; [discriminate|reflexivity].
  Qed.

  (** ** Three indices *)
  Notation ncomp3 := (ncomp_e1 e * ncomp_tensor e).

  Lemma tail_3c_cart :
    nf e = fi * fk * fj ->
    fi * ci <= n1 -> fj * cj <= n2 -> fk * ck <= n3 ->
    dims_are dims 3 [n1; n2; n3] [fi * ci; fj * cj; fk * ck] ->
    room (asize out) ncomp3 n1 n2 n3 1 (fi * ci) (fj * cj) (fk * ck) 1 ->
    (hv = true -> reads gctr (ncomp3 * (nf e * ci * cj * ck)) x) ->
    exists out', CINT3c2e_drv_tail zero add mul coef CartK false hv dims out gctr e = Some out' /\
      stored_block out out' ncomp3 n1 n2 n3 1 (fi * ci) (fj * cj) (fk * ck) 1
        (fun n I J K _ => if hv then cart3 x fi fj fk ci cj ck n I J K else zero).
  Proof.
    intros Enf M1 M2 M3 HD Hsz Hx. destruct SH as [Ei Ej Ek El Efi Efj Eci Ecj Eck Ecl].
    pose proof (lcp li Hli). pose proof (lcp lj Hlj). pose proof (lcp lk Hlk).
    unfold CINT3c2e_drv_tail, drv_tail. rewrite Efi, Efj, Efk, Eci, Ecj, Eck.
    pose proof (dims3 _ _ _ _ _ _ _ HD) as [D0 [D1 D2]].
    set (d := match dims with None => _ | Some d => d end) in *.
    unfold nout3. rewrite D0, D1, D2. cbn [bind]. rewrite <- (Z.mul_1_r (n1 * n2 * n3)).
    assert (P1 : 0 <= fi * ci) by (apply Z.mul_nonneg_nonneg; lia).
    assert (P2 : 0 <= fj * cj) by (apply Z.mul_nonneg_nonneg; lia).
    assert (P3 : 0 <= fk * ck) by (apply Z.mul_nonneg_nonneg; lia).
    assert (Pnc : 0 <= nf e * ci * cj * ck) by (rewrite Enf; repeat apply Z.mul_nonneg_nonneg; lia).
    destruct hv.
    - apply comp_loop; try lia; try assumption. intros n Hn. specialize (Hx eq_refl).
      pose proof (c2s_cart_3c2e1_puts (asize out)
        (blkV ncomp3 n1 n2 n3 1 (fi * ci) (fj * cj) (fk * ck) 1
           (fun n I J K _ => cart3 x fi fj fk ci cj ck n I J K))
        e d n1 n2 n3 D0 D1 (sub gctr (nf e * ci * cj * ck * n))
        (fun q => x (nf e * ci * cj * ck * n + q))) as H'.
      rewrite Efi, Efj, Efk, Eci, Ecj, Eck in H'. apply H'; clear H'; try assumption; try lia.
      + destruct (pb _ n (nf e * ci * cj * ck) ncomp3 eq_refl Pnc Hn) as [B1 B2].
        eapply reads_sub; [exact B1|exact B2|]. rewrite Z.mul_comm. exact Hx.
      + intros kc jc ic k j i Hkc Hjc Hic Hk Hj Hi. cbv zeta.
        apply (blkV_at n1 n2 n3 1 _ _ _ _ ncomp3) with (n := n) (i1 := ic * fi + i) (i2 := jc * fj + j) (i3 := kc * fk + k) (i4 := 0);
          try assumption; try (apply idx_range; assumption); try (split; lia).
        * unfold place. ring.
        * unfold cart3, batch3. rewrite !idx_div, !idx_mod by assumption. f_equal. rewrite Enf. ring.
    - apply (dset0_tail zero n1 n2 n3 1 _ _ _ _ ncomp3) with (n3' := n3); try lia; try assumption; auto.
      unfold d. destruct dims; [discriminate|reflexivity].
  Qed.

  Lemma tail_3c_sph :
    nf e = fi * fk * fj ->
    si * ci <= n1 -> sj * cj <= n2 -> sk * ck <= n3 ->
    dims_are dims 3 [n1; n2; n3] [si * ci; sj * cj; sk * ck] ->
    room (asize out) ncomp3 n1 n2 n3 1 (si * ci) (sj * cj) (sk * ck) 1 ->
    (hv = true -> reads gctr (ncomp3 * (nf e * ci * cj * ck)) x) ->
    exists out', CINT3c2e_drv_tail zero add mul coef SphK false hv dims out gctr e = Some out' /\
      stored_block out out' ncomp3 n1 n2 n3 1 (si * ci) (sj * cj) (sk * ck) 1
        (fun n I J K _ => if hv then sph_ijk zero add mul coef c2s_off CINTlen_cart li lj lk
             (batch3 x (fi * fk * fj) ci cj ck n (I / si) (J / sj) (K / sk))
             (I mod si) (J mod sj) (K mod sk) else zero).
  Proof.
    intros Enf M1 M2 M3 HD Hsz Hx. destruct SH as [Ei Ej Ek El Efi Efj Eci Ecj Eck Ecl].
    pose proof (lcp li Hli). pose proof (lcp lj Hlj). pose proof (lcp lk Hlk).
    unfold CINT3c2e_drv_tail, drv_tail. rewrite Ei, Ej, Ek, Eci, Ecj, Eck.
    pose proof (dims3 _ _ _ _ _ _ _ HD) as [D0 [D1 D2]].
    set (d := match dims with None => _ | Some d => d end) in *.
    unfold nout3. rewrite D0, D1, D2. cbn [bind]. rewrite <- (Z.mul_1_r (n1 * n2 * n3)).
    assert (P1 : 0 <= si * ci) by (apply Z.mul_nonneg_nonneg; lia).
    assert (P2 : 0 <= sj * cj) by (apply Z.mul_nonneg_nonneg; lia).
    assert (P3 : 0 <= sk * ck) by (apply Z.mul_nonneg_nonneg; lia).
    assert (Pnc : 0 <= nf e * ci * cj * ck) by (rewrite Enf; repeat apply Z.mul_nonneg_nonneg; lia).
    destruct hv.
    - apply comp_loop; try lia; try assumption. intros n Hn. specialize (Hx eq_refl).
      pose proof (c2s_sph_3c2e1_puts zero one add mul sub_ opp Rth coef Htab (asize out)
        (blkV ncomp3 n1 n2 n3 1 (si * ci) (sj * cj) (sk * ck) 1
           (fun n I J K _ => sph_ijk zero add mul coef c2s_off CINTlen_cart li lj lk
             (batch3 x (fi * fk * fj) ci cj ck n (I / si) (J / sj) (K / sk))
             (I mod si) (J mod sj) (K mod sk)))
        e d n1 n2 n3 1 D0 D1 (sub gctr (nf e * ci * cj * ck * n))
        (fun q => x (nf e * ci * cj * ck * n + q))) as H'.
      rewrite Ei, Ej, Ek, Efi, Efj, Efk, Eci, Ecj, Eck in H'. apply H'; clear H'; try assumption; try lia; try (symmetry; apply len_cart_eq; assumption).
      + destruct (pb _ n (nf e * ci * cj * ck) ncomp3 eq_refl Pnc Hn) as [B1 B2].
        eapply reads_sub; [exact B1|exact B2|]. rewrite Z.mul_comm. exact Hx.
      + intros kc jc ic k j i Hkc Hjc Hic Hk Hj Hi. cbv zeta.
        apply (blkV_at n1 n2 n3 1 _ _ _ _ ncomp3) with (n := n) (i1 := ic * si + i) (i2 := jc * sj + j) (i3 := kc * sk + k) (i4 := 0);
          try assumption; try (apply idx_range; assumption); try (split; lia).
        * unfold place. ring.
        * rewrite !idx_div, !idx_mod by assumption. unfold sph_ijk.
          apply app_conv; [assumption|]. intros a Ha. apply app_conv; [assumption|]. intros c Hc.
          apply app_conv; [assumption|]. intros b Hb.
          rewrite !len_cart_eq by assumption. unfold batch3. f_equal. rewrite Enf. ring.
    - apply (dset0_tail zero n1 n2 n3 1 _ _ _ _ ncomp3) with (n3' := n3); try lia; try assumption; auto.
      unfold d. destruct dims; [discriminate|reflexivity].
  Qed.

  Lemma tail_1e_cart :
    nf e = fi * fj ->
    fi * ci <= n1 -> fj * cj <= n2 ->
    dims_are dims 2 [n1; n2] [fi * ci; fj * cj] ->
    (hv = false -> match dims with Some d => exists n3, rd d 2 = Some n3 | None => True end) ->
    room (asize out) ncomp3 n1 n2 1 1 (fi * ci) (fj * cj) 1 1 ->
    (hv = true -> reads gctr (ncomp3 * (nf e * ci * cj)) x) ->
    exists out', CINT1e_drv_tail zero add mul coef CartK hv dims out gctr e = Some out' /\
      stored_block out out' ncomp3 n1 n2 1 1 (fi * ci) (fj * cj) 1 1
        (fun n I J _ _ => if hv then cart2 x fi fj ci cj n I J else zero).
  Proof.
    intros Enf M1 M2 HD HD2 Hsz Hx. destruct SH as [Ei Ej Ek El Efi Efj Eci Ecj Eck Ecl].
    pose proof (lcp li Hli). pose proof (lcp lj Hlj).
    unfold CINT1e_drv_tail, drv_tail. rewrite Efi, Efj, Eci, Ecj.
    pose proof (dims2 _ _ _ _ _ HD) as [D0 D1].
    set (d := match dims with None => _ | Some d => d end) in *.
    unfold nout2. rewrite D0, D1. cbn [bind]. replace (n1 * n2) with (n1 * n2 * 1 * 1) by ring.
    assert (P1 : 0 <= fi * ci) by (apply Z.mul_nonneg_nonneg; lia).
    assert (P2 : 0 <= fj * cj) by (apply Z.mul_nonneg_nonneg; lia).
    assert (Pnc : 0 <= nf e * ci * cj) by (rewrite Enf; repeat apply Z.mul_nonneg_nonneg; lia).
    destruct hv.
    - apply comp_loop; try lia; try assumption. intros n Hn. specialize (Hx eq_refl).
      pose proof (c2s_cart_1e_puts (asize out)
        (blkV ncomp3 n1 n2 1 1 (fi * ci) (fj * cj) 1 1
           (fun n I J _ _ => cart2 x fi fj ci cj n I J))
        e d n1 n2 1  D0 D1 (sub gctr (nf e * ci * cj * n))
        (fun q => x (nf e * ci * cj * n + q))) as H'.
      rewrite Efi, Efj, Eci, Ecj in H'. apply H'; clear H'; try assumption; try lia.
      + destruct (pb _ n (nf e * ci * cj) (ncomp3) eq_refl Pnc Hn) as [B1 B2].
        eapply reads_sub; [exact B1|exact B2|]. rewrite Z.mul_comm. exact Hx.
      + intros jc ic j i Hjc Hic Hj Hi. cbv zeta.
        apply (blkV_at n1 n2 1 1 _ _ _ _ (ncomp3)) with (n := n) (i1 := ic * fi + i) (i2 := jc * fj + j) (i3 := 0) (i4 := 0);
          try assumption; try (apply idx_range; assumption); try (split; lia).
        * unfold place. ring.
        * unfold cart2, batch2. rewrite !idx_div, !idx_mod by assumption. f_equal. rewrite Enf. ring.
    - assert (D2 : exists n3', rd d 2 = Some n3').
      { unfold d. destruct dims; [apply HD2; reflexivity|exists 1; reflexivity]. }
      destruct D2 as [n3' D2].
      apply (dset0_tail zero n1 n2 1 1 _ _ _ _ (ncomp3)) with (n3' := n3'); try lia; try assumption; auto.
      unfold d. destruct dims; [discriminate|reflexivity].
  Qed.

  Lemma tail_1e_sph :
    nf e = fi * fj ->
    si * ci <= n1 -> sj * cj <= n2 ->
    dims_are dims 2 [n1; n2] [si * ci; sj * cj] ->
    (hv = false -> match dims with Some d => exists n3, rd d 2 = Some n3 | None => True end) ->
    room (asize out) ncomp3 n1 n2 1 1 (si * ci) (sj * cj) 1 1 ->
    (hv = true -> reads gctr (ncomp3 * (nf e * ci * cj)) x) ->
    exists out', CINT1e_drv_tail zero add mul coef SphK hv dims out gctr e = Some out' /\
      stored_block out out' ncomp3 n1 n2 1 1 (si * ci) (sj * cj) 1 1
        (fun n I J _ _ => if hv then sph_ij zero add mul coef c2s_off CINTlen_cart li lj
             (batch2 x (fi * fj) ci cj n (I / si) (J / sj)) (I mod si) (J mod sj) else zero).
  Proof.
    intros Enf M1 M2 HD HD2 Hsz Hx. destruct SH as [Ei Ej Ek El Efi Efj Eci Ecj Eck Ecl].
    pose proof (lcp li Hli). pose proof (lcp lj Hlj).
    unfold CINT1e_drv_tail, drv_tail. rewrite Ei, Ej, Eci, Ecj.
    pose proof (dims2 _ _ _ _ _ HD) as [D0 D1].
    set (d := match dims with None => _ | Some d => d end) in *.
    unfold nout2. rewrite D0, D1. cbn [bind]. replace (n1 * n2) with (n1 * n2 * 1 * 1) by ring.
    assert (P1 : 0 <= si * ci) by (apply Z.mul_nonneg_nonneg; lia).
    assert (P2 : 0 <= sj * cj) by (apply Z.mul_nonneg_nonneg; lia).
    assert (Pnc : 0 <= nf e * ci * cj) by (rewrite Enf; repeat apply Z.mul_nonneg_nonneg; lia).
    destruct hv.
    - apply comp_loop; try lia; try assumption. intros n Hn. specialize (Hx eq_refl).
      pose proof (c2s_sph_1e_puts zero one add mul sub_ opp Rth coef Htab (asize out)
        (blkV ncomp3 n1 n2 1 1 (si * ci) (sj * cj) 1 1
           (fun n I J _ _ => sph_ij zero add mul coef c2s_off CINTlen_cart li lj
             (batch2 x (fi * fj) ci cj n (I / si) (J / sj)) (I mod si) (J mod sj)))
        e d n1 n2 1 1 D0 D1 (sub gctr (nf e * ci * cj * n))
        (fun q => x (nf e * ci * cj * n + q))) as H'.
      rewrite Ei, Ej, Efi, Efj, Eci, Ecj in H'. apply H'; clear H'; try assumption; try lia; try (symmetry; apply len_cart_eq; assumption).
      + destruct (pb _ n (nf e * ci * cj) (ncomp3) eq_refl Pnc Hn) as [B1 B2].
        eapply reads_sub; [exact B1|exact B2|]. rewrite Z.mul_comm. exact Hx.
      + intros jc ic j i Hjc Hic Hj Hi. cbv zeta.
        apply (blkV_at n1 n2 1 1 _ _ _ _ (ncomp3)) with (n := n) (i1 := ic * si + i) (i2 := jc * sj + j) (i3 := 0) (i4 := 0);
          try assumption; try (apply idx_range; assumption); try (split; lia).
        * unfold place. ring.
        * rewrite !idx_div, !idx_mod by assumption. unfold sph_ij.
          apply app_conv; [assumption|]. intros a Ha. apply app_conv; [assumption|]. intros b Hb.
          rewrite !len_cart_eq by assumption. unfold batch2. f_equal. rewrite Enf. ring.
    - assert (D2 : exists n3', rd d 2 = Some n3').
      { unfold d. destruct dims; [apply HD2; reflexivity|exists 1; reflexivity]. }
      destruct D2 as [n3' D2].
      apply (dset0_tail zero n1 n2 1 1 _ _ _ _ (ncomp3)) with (n3' := n3'); try lia; try assumption; auto.
      unfold d. destruct dims; [discriminate|reflexivity].
  Qed.

  Lemma tail_2c_cart :
    nf e = fi * fj -> nfk e = fj -> k_l e = lj ->
   
    fi * ci <= n1 -> fj * cj <= n2 ->
    dims_are dims 2 [n1; n2] [fi * ci; fj * cj] ->
    (hv = false -> match dims with Some d => exists n3, rd d 2 = Some n3 | None => True end) ->
    room (asize out) ncomp4 n1 n2 1 1 (fi * ci) (fj * cj) 1 1 ->
    (hv = true -> reads gctr (ncomp4 * (nf e * ci * cj)) x) ->
    exists out', CINT2c2e_drv_tail zero add mul coef CartK hv dims out gctr e = Some out' /\
      stored_block out out' ncomp4 n1 n2 1 1 (fi * ci) (fj * cj) 1 1
        (fun n I J _ _ => if hv then cart2 x fi fj ci cj n I J else zero).
  Proof.
    intros Enf Efk' Ekl' M1 M2 HD HD2 Hsz Hx. destruct SH as [Ei Ej Ek El Efi Efj Eci Ecj Eck Ecl].
    pose proof (lcp li Hli). pose proof (lcp lj Hlj).
    unfold CINT2c2e_drv_tail, drv_tail. rewrite Efi, Efk', Eci, Ecj.
    pose proof (dims2 _ _ _ _ _ HD) as [D0 D1].
    set (d := match dims with None => _ | Some d => d end) in *.
    unfold nout2. rewrite D0, D1. cbn [bind]. replace (n1 * n2) with (n1 * n2 * 1 * 1) by ring.
    assert (P1 : 0 <= fi * ci) by (apply Z.mul_nonneg_nonneg; lia).
    assert (P2 : 0 <= fj * cj) by (apply Z.mul_nonneg_nonneg; lia).
    assert (Pnc : 0 <= nf e * ci * cj) by (rewrite Enf; repeat apply Z.mul_nonneg_nonneg; lia).
    destruct hv.
    - apply comp_loop; try lia; try assumption. intros n Hn. specialize (Hx eq_refl).
      pose proof (c2s_cart_1e_puts (asize out)
        (blkV ncomp4 n1 n2 1 1 (fi * ci) (fj * cj) 1 1
           (fun n I J _ _ => cart2 x fi fj ci cj n I J))
        e d n1 n2 1  D0 D1 (sub gctr (nf e * ci * cj * n))
        (fun q => x (nf e * ci * cj * n + q))) as H'.
      rewrite Efi, Efj, Eci, Ecj in H'. apply H'; clear H'; try assumption; try lia.
      + destruct (pb _ n (nf e * ci * cj) (ncomp4) eq_refl Pnc Hn) as [B1 B2].
        eapply reads_sub; [exact B1|exact B2|]. rewrite Z.mul_comm. exact Hx.
      + intros jc ic j i Hjc Hic Hj Hi. cbv zeta.
        apply (blkV_at n1 n2 1 1 _ _ _ _ (ncomp4)) with (n := n) (i1 := ic * fi + i) (i2 := jc * fj + j) (i3 := 0) (i4 := 0);
          try assumption; try (apply idx_range; assumption); try (split; lia).
        * unfold place. ring.
        * unfold cart2, batch2. rewrite !idx_div, !idx_mod by assumption. f_equal. rewrite Enf. ring.
    - assert (D2 : exists n3', rd d 2 = Some n3').
      { unfold d. destruct dims; [apply HD2; reflexivity|exists 1; reflexivity]. }
      destruct D2 as [n3' D2].
      apply (dset0_tail zero n1 n2 1 1 _ _ _ _ (ncomp4)) with (n3' := n3'); try lia; try assumption; auto.
      unfold d. destruct dims; [discriminate|reflexivity].
  Qed.

  Lemma tail_2c_sph :
    nf e = fi * fj -> nfk e = fj -> k_l e = lj ->
   
    si * ci <= n1 -> sj * cj <= n2 ->
    dims_are dims 2 [n1; n2] [si * ci; sj * cj] ->
    (hv = false -> match dims with Some d => exists n3, rd d 2 = Some n3 | None => True end) ->
    room (asize out) ncomp4 n1 n2 1 1 (si * ci) (sj * cj) 1 1 ->
    (hv = true -> reads gctr (ncomp4 * (nf e * ci * cj)) x) ->
    exists out', CINT2c2e_drv_tail zero add mul coef SphK hv dims out gctr e = Some out' /\
      stored_block out out' ncomp4 n1 n2 1 1 (si * ci) (sj * cj) 1 1
        (fun n I J _ _ => if hv then sph_ij zero add mul coef c2s_off CINTlen_cart li lj
             (batch2 x (fi * fj) ci cj n (I / si) (J / sj)) (I mod si) (J mod sj) else zero).
  Proof.
    intros Enf Efk' Ekl' M1 M2 HD HD2 Hsz Hx. destruct SH as [Ei Ej Ek El Efi Efj Eci Ecj Eck Ecl].
    pose proof (lcp li Hli). pose proof (lcp lj Hlj).
    unfold CINT2c2e_drv_tail, drv_tail. rewrite Ei, Ekl', Eci, Ecj.
    pose proof (dims2 _ _ _ _ _ HD) as [D0 D1].
    set (d := match dims with None => _ | Some d => d end) in *.
    unfold nout2. rewrite D0, D1. cbn [bind]. replace (n1 * n2) with (n1 * n2 * 1 * 1) by ring.
    assert (P1 : 0 <= si * ci) by (apply Z.mul_nonneg_nonneg; lia).
    assert (P2 : 0 <= sj * cj) by (apply Z.mul_nonneg_nonneg; lia).
    assert (Pnc : 0 <= nf e * ci * cj) by (rewrite Enf; repeat apply Z.mul_nonneg_nonneg; lia).
    destruct hv.
    - apply comp_loop; try lia; try assumption. intros n Hn. specialize (Hx eq_refl).
      pose proof (c2s_sph_1e_puts zero one add mul sub_ opp Rth coef Htab (asize out)
        (blkV ncomp4 n1 n2 1 1 (si * ci) (sj * cj) 1 1
           (fun n I J _ _ => sph_ij zero add mul coef c2s_off CINTlen_cart li lj
             (batch2 x (fi * fj) ci cj n (I / si) (J / sj)) (I mod si) (J mod sj)))
        e d n1 n2 1 1 D0 D1 (sub gctr (nf e * ci * cj * n))
        (fun q => x (nf e * ci * cj * n + q))) as H'.
      rewrite Ei, Ej, Efi, Efj, Eci, Ecj in H'. apply H'; clear H'; try assumption; try lia; try (symmetry; apply len_cart_eq; assumption).
      + destruct (pb _ n (nf e * ci * cj) (ncomp4) eq_refl Pnc Hn) as [B1 B2].
        eapply reads_sub; [exact B1|exact B2|]. rewrite Z.mul_comm. exact Hx.
      + intros jc ic j i Hjc Hic Hj Hi. cbv zeta.
        apply (blkV_at n1 n2 1 1 _ _ _ _ (ncomp4)) with (n := n) (i1 := ic * si + i) (i2 := jc * sj + j) (i3 := 0) (i4 := 0);
          try assumption; try (apply idx_range; assumption); try (split; lia).
        * unfold place. ring.
        * rewrite !idx_div, !idx_mod by assumption. unfold sph_ij.
          apply app_conv; [assumption|]. intros a Ha. apply app_conv; [assumption|]. intros b Hb.
          rewrite !len_cart_eq by assumption. unfold batch2. f_equal. rewrite Enf. ring.
    - assert (D2 : exists n3', rd d 2 = Some n3').
      { unfold d. destruct dims; [apply HD2; reflexivity|exists 1; reflexivity]. }
      destruct D2 as [n3' D2].
      apply (dset0_tail zero n1 n2 1 1 _ _ _ _ (ncomp4)) with (n3' := n3'); try lia; try assumption; auto.
      unfold d. destruct dims; [discriminate|reflexivity].
  Qed.

  (** ** Grids *)
  Variable ngrids : Z.
  Hypothesis PN : 0 <= ngrids.

  Lemma grid_div t m : 0 <= m < GRID_BLKSIZE -> (GRID_BLKSIZE * t + m) / GRID_BLKSIZE = t.
  Proof. intros. rewrite (Z.mul_comm _ t). apply idx_div. assumption. Qed.
  Lemma grid_mod t m : 0 <= m < GRID_BLKSIZE -> (GRID_BLKSIZE * t + m) mod GRID_BLKSIZE = m.
  Proof. intros. rewrite (Z.mul_comm _ t). apply idx_mod. assumption. Qed.

  Lemma tail_grids_cart :
    nf e = fi * fj ->
    fi * ci <= n1 -> fj * cj <= n2 -> ngrids <= n3 ->
    dims_are dims 3 [n1; n2; n3] [fi * ci; fj * cj; ngrids] ->
    (hv = false -> match dims with Some d => exists n4, rd d 3 = Some n4 | None => True end) ->
    room (asize out) ncomp3 n3 n1 n2 1 ngrids (fi * ci) (fj * cj) 1 ->
    (hv = true -> reads gctr (ncomp3 * (ngrids * nf e * ci * cj)) x) ->
    exists out', CINT1e_grids_drv_tail zero add mul coef CartK hv dims ngrids out gctr e = Some out' /\
      stored_block out out' ncomp3 n3 n1 n2 1 ngrids (fi * ci) (fj * cj) 1
        (fun n g I J _ => if hv then cart_grid x fi fj ci cj ngrids GRID_BLKSIZE n g I J else zero).
  Proof.
    intros Enf M1 M2 M3 HD HD3 Hsz Hx. destruct SH as [Ei Ej Ek El Efi Efj Eci Ecj Eck Ecl].
    pose proof (lcp li Hli). pose proof (lcp lj Hlj).
    unfold CINT1e_grids_drv_tail, drv_tail. rewrite Efi, Efj, Eci, Ecj.
    pose proof (dims3 _ _ _ _ _ _ _ HD) as [D0 [D1 D2]].
    set (d := match dims with None => _ | Some d => d end) in *.
    unfold nout3. rewrite D0, D1, D2. cbn [bind].
    replace (n1 * n2 * n3) with (n3 * n1 * n2 * 1) by ring.
    assert (P1 : 0 <= fi * ci) by (apply Z.mul_nonneg_nonneg; lia).
    assert (P2 : 0 <= fj * cj) by (apply Z.mul_nonneg_nonneg; lia).
    assert (Pnc : 0 <= ngrids * nf e * ci * cj) by (rewrite Enf; repeat apply Z.mul_nonneg_nonneg; lia).
    destruct hv.
    - apply comp_loop; try lia; try assumption. intros n Hn. specialize (Hx eq_refl).
      pose proof (c2s_cart_1e_grids_puts (asize out)
        (blkV ncomp3 n3 n1 n2 1 ngrids (fi * ci) (fj * cj) 1
           (fun n g I J _ => cart_grid x fi fj ci cj ngrids GRID_BLKSIZE n g I J))
        e d n1 n2 n3 ngrids D0 D1 D2 (sub gctr (ngrids * nf e * ci * cj * n))
        (fun q => x (ngrids * nf e * ci * cj * n + q))) as H'.
      rewrite Efi, Efj, Eci, Ecj in H'. apply H'; clear H'; try assumption; try lia.
      + destruct (pb _ n (ngrids * nf e * ci * cj) ncomp3 eq_refl Pnc Hn) as [B1 B2].
        eapply reads_sub; [exact B1|exact B2|]. rewrite Z.mul_comm. exact Hx.
      + intros t jc ic j i m Ht Hjc Hic Hj Hi. cbv zeta. intros Hm.
        pose proof (block_start GRID_BLKSIZE ngrids t ltac:(reflexivity) Ht) as Hgo.
        assert (Hm' : 0 <= m < GRID_BLKSIZE) by lia.
        apply (blkV_at n3 n1 n2 1 _ _ _ _ ncomp3) with (n := n) (i1 := GRID_BLKSIZE * t + m) (i2 := ic * fi + i) (i3 := jc * fj + j) (i4 := 0);
          try assumption; try (apply idx_range; assumption); try (split; lia).
        * unfold place. ring.
        * unfold cart_grid, batch_grid. cbv zeta. rewrite !idx_div, !idx_mod, grid_div, grid_mod by (assumption || lia).
          rewrite (Z.mul_comm t GRID_BLKSIZE). f_equal. rewrite Enf. ring.
    - assert (D3 : exists n4', rd d 3 = Some n4').
      { unfold d. destruct dims; [apply HD3; reflexivity|exists 1; reflexivity]. }
      destruct D3 as [n4' D3].
      unfold c2s_grids_dset0, permuted. rewrite D0, D1, D2, D3.
      destruct (rd_arr4 (fi * ci) (fj * cj) ngrids 1) as [C0 [C1 [C2 C3]]]. rewrite C0, C1, C2, C3. cbn [bind].
      destruct (rd_arr4 n3 n1 n2 n4') as [E0 [E1 [E2 E3]]].
      apply (dset0_tail zero n3 n1 n2 1 _ _ _ _ ncomp3) with (n3' := n2); try lia; try assumption; auto.
  Qed.

  Lemma tail_grids_sph :
    nf e = fi * fj ->
    si * ci <= n1 -> sj * cj <= n2 -> ngrids <= n3 ->
    dims_are dims 3 [n1; n2; n3] [si * ci; sj * cj; ngrids] ->
    (hv = false -> match dims with Some d => exists n4, rd d 3 = Some n4 | None => True end) ->
    room (asize out) ncomp3 n3 n1 n2 1 ngrids (si * ci) (sj * cj) 1 ->
    (hv = true -> reads gctr (ncomp3 * (ngrids * nf e * ci * cj)) x) ->
    exists out', CINT1e_grids_drv_tail zero add mul coef SphK hv dims ngrids out gctr e = Some out' /\
      stored_block out out' ncomp3 n3 n1 n2 1 ngrids (si * ci) (sj * cj) 1
        (fun n g I J _ => if hv then sph_grid zero add mul coef c2s_off CINTlen_cart li lj (Z.min (ngrids - g / GRID_BLKSIZE * GRID_BLKSIZE) GRID_BLKSIZE)
             (batch_grid x (fi * fj) ci cj ngrids GRID_BLKSIZE n (I / si) (J / sj) g) (I mod si) (J mod sj) (g mod GRID_BLKSIZE) else zero).
  Proof.
    intros Enf M1 M2 M3 HD HD3 Hsz Hx. destruct SH as [Ei Ej Ek El Efi Efj Eci Ecj Eck Ecl].
    pose proof (lcp li Hli). pose proof (lcp lj Hlj).
    unfold CINT1e_grids_drv_tail, drv_tail. rewrite Ei, Ej, Eci, Ecj.
    pose proof (dims3 _ _ _ _ _ _ _ HD) as [D0 [D1 D2]].
    set (d := match dims with None => _ | Some d => d end) in *.
    unfold nout3. rewrite D0, D1, D2. cbn [bind].
    replace (n1 * n2 * n3) with (n3 * n1 * n2 * 1) by ring.
    assert (P1 : 0 <= si * ci) by (apply Z.mul_nonneg_nonneg; lia).
    assert (P2 : 0 <= sj * cj) by (apply Z.mul_nonneg_nonneg; lia).
    assert (Pnc : 0 <= ngrids * nf e * ci * cj) by (rewrite Enf; repeat apply Z.mul_nonneg_nonneg; lia).
    destruct hv.
    - apply comp_loop; try lia; try assumption. intros n Hn. specialize (Hx eq_refl).
      pose proof (c2s_sph_1e_grids_puts zero one add mul sub_ opp Rth coef Htab (asize out)
        (blkV ncomp3 n3 n1 n2 1 ngrids (si * ci) (sj * cj) 1
           (fun n g I J _ => sph_grid zero add mul coef c2s_off CINTlen_cart li lj (Z.min (ngrids - g / GRID_BLKSIZE * GRID_BLKSIZE) GRID_BLKSIZE)
             (batch_grid x (fi * fj) ci cj ngrids GRID_BLKSIZE n (I / si) (J / sj) g) (I mod si) (J mod sj) (g mod GRID_BLKSIZE)))
        e d n1 n2 (sub gctr (ngrids * nf e * ci * cj * n))
        (fun q => x (ngrids * nf e * ci * cj * n + q))) as H'.
      rewrite Ei, Ej, Efi, Efj, Eci, Ecj in H'. specialize (H' Hli Hlj (eq_sym (len_cart_eq li Hli)) (eq_sym (len_cart_eq lj Hlj)) Hci Hcj n3 ngrids D0 D1 D2 PN).
      apply H'; clear H'; try assumption.
      + destruct (pb _ n (ngrids * nf e * ci * cj) ncomp3 eq_refl Pnc Hn) as [B1 B2].
        eapply reads_sub; [exact B1|exact B2|]. rewrite Z.mul_comm. exact Hx.
      + intros t jc ic j i m Ht Hjc Hic Hj Hi. cbv zeta. intros Hm.
        pose proof (block_start GRID_BLKSIZE ngrids t ltac:(reflexivity) Ht) as Hgo.
        assert (Hm' : 0 <= m < GRID_BLKSIZE) by lia.
        apply (blkV_at n3 n1 n2 1 _ _ _ _ ncomp3) with (n := n) (i1 := GRID_BLKSIZE * t + m) (i2 := ic * si + i) (i3 := jc * sj + j) (i4 := 0);
          try assumption; try (apply idx_range; assumption); try (split; lia).
        * unfold place. ring.
        * rewrite !idx_div, !idx_mod, grid_div, grid_mod by (assumption || lia).
          rewrite (Z.mul_comm t GRID_BLKSIZE). unfold sph_grid.
          apply app_conv; [assumption|]. intros a Ha. apply app_conv; [assumption|]. intros b Hb.
          rewrite !len_cart_eq by assumption. unfold batch_grid. cbv zeta. rewrite grid_div by lia.
          rewrite (Z.mul_comm t GRID_BLKSIZE). f_equal. rewrite Enf. ring.
    - assert (D3 : exists n4', rd d 3 = Some n4').
      { unfold d. destruct dims; [apply HD3; reflexivity|exists 1; reflexivity]. }
      destruct D3 as [n4' D3].
      unfold c2s_grids_dset0, permuted. rewrite D0, D1, D2, D3.
      destruct (rd_arr4 (si * ci) (sj * cj) ngrids 1) as [C0 [C1 [C2 C3]]]. rewrite C0, C1, C2, C3. cbn [bind].
      destruct (rd_arr4 n3 n1 n2 n4') as [E0 [E1 [E2 E3]]].
      apply (dset0_tail zero n3 n1 n2 1 _ _ _ _ ncomp3) with (n3' := n2); try lia; try assumption; auto.
  Qed.
End Drv.
