(** OutSetup.v — the driver tails with the environments the initialisers build. *)
From Verif Require Import Base BasModel EnvModel OutModel OutSpec SphProof OutFinal TabSph TabModel.
From Coq Require Import Reals.
Local Open Scope Z_scope.

(** the environments that reach each driver *)
Definition env1 (ng : ngT) (li lj ci cj : Z) (e : envs) : Prop := e = init_int1e ng li lj ci cj.
Definition env2c (ng : ngT) (li lj ci cj : Z) (e : envs) : Prop :=
  exists omega_neg, e = init_int2c2e omega_neg ng li lj ci cj.
Definition env3 (ng : ngT) (li lj lk ci cj ck : Z) (e : envs) : Prop :=
  (exists omega_neg, e = init_int3c2e omega_neg ng li lj lk ci cj ck) \/ e = init_int3c1e ng li lj lk ci cj ck.
Definition env4 (ng : ngT) (li lj lk ll ci cj ck cl : Z) (e : envs) : Prop :=
  (exists omega_neg, e = init_int2e omega_neg ng li lj lk ll ci cj ck cl) \/
  e = init_int2e_yp ng li lj lk ll ci cj ck cl \/ e = init_int4c1e ng li lj lk ll ci cj ck cl.
Definition envg (ng : ngT) (li lj ci cj : Z) (e : envs) : Prop :=
  exists omega_neg, e = init_int1e_grids omega_neg ng li lj ci cj.

Definition ncompA (ng : ngT) : Z := POS_E1 ng * TENSOR ng.
Definition ncompB (ng : ngT) : Z := POS_E1 ng * POS_E2 ng * TENSOR ng.

Ltac by_env := cbv [env1 env2c env3 env4 envg init_int1e init_int2c2e init_int3c2e init_int3c1e init_int2e init_int2e_yp
  init_int4c1e init_4c init_int1e_grids] in *; repeat match goal with H : _ \/ _ |- _ => destruct H | H : exists _, _ |- _ => destruct H end; subst;
  cbn [i_l j_l k_l l_l i_ctr j_ctr k_ctr l_ctr nfi nfj nfk nfl nf ncomp_e1 ncomp_e2 ncomp_tensor].

Lemma env1_ok ng li lj ci cj e : env1 ng li lj ci cj e ->
  shells e li lj 0 0 ci cj 1 1 /\ nf e = CINTlen_cart li * CINTlen_cart lj /\ ncomp_e1 e * ncomp_tensor e = ncompA ng.
Proof. intros H. by_env. split; [constructor; reflexivity|split; reflexivity]. Qed.
Lemma envg_ok ng li lj ci cj e : envg ng li lj ci cj e ->
  shells e li lj 0 0 ci cj 1 1 /\ nf e = CINTlen_cart li * CINTlen_cart lj /\ ncomp_e1 e * ncomp_tensor e = ncompA ng.
Proof. intros H. by_env. split; [constructor; reflexivity|split; reflexivity]. Qed.
Lemma env2c_ok ng li lj ci cj e : env2c ng li lj ci cj e ->
  shells e li lj lj 0 ci cj 1 1 /\ nf e = CINTlen_cart li * CINTlen_cart lj /\ nfk e = CINTlen_cart lj /\ k_l e = lj /\
  ncomp_e1 e * ncomp_e2 e * ncomp_tensor e = ncompB ng.
Proof. intros H. by_env. split; [constructor; reflexivity|repeat split; reflexivity]. Qed.
Lemma env3_ok ng li lj lk ci cj ck e : env3 ng li lj lk ci cj ck e ->
  shells e li lj lk 0 ci cj ck 1 /\ nfk e = CINTlen_cart lk /\ nf e = CINTlen_cart li * CINTlen_cart lk * CINTlen_cart lj /\
  ncomp_e1 e * ncomp_tensor e = ncompA ng.
Proof. intros H. by_env; (split; [constructor; reflexivity|split; [reflexivity|split; [ring|reflexivity]]]). Qed.
Lemma env4_ok ng li lj lk ll ci cj ck cl e : env4 ng li lj lk ll ci cj ck cl e ->
  shells e li lj lk ll ci cj ck cl /\ nfk e = CINTlen_cart lk /\ nfl e = CINTlen_cart ll /\
  nf e = CINTlen_cart li * CINTlen_cart lk * CINTlen_cart ll * CINTlen_cart lj /\
  ncomp_e1 e * ncomp_e2 e * ncomp_tensor e = ncompB ng.
Proof. intros H. by_env; (split; [constructor; reflexivity|split; [reflexivity|split; [reflexivity|split; [ring|reflexivity]]]]). Qed.

(** ** The table meets what the transforms assume *)
Definition dec (q : Z) : Z := nth (Z.to_nat q) g_trans_cart2sph_dec 0.
Definition ident_chk (l : Z) : bool :=
  forallb (fun m => forallb (fun a => dec (c2s_off l + Z.of_nat m * len_cart l + Z.of_nat a) =? (if Nat.eqb m a then 10 ^ 18 else 0))
    (seq 0 (Z.to_nat (len_cart l)))) (seq 0 (Z.to_nat (len_cart l))).
Definition skip_chk (l : Z) (rows : list (list (Z * Z))) : bool :=
  forallb (fun p => forallb (fun a => existsb (Z.eqb (Z.of_nat a)) (map snd (snd p)) ||
      (dec (c2s_off l + Z.of_nat (fst p) * len_cart l + Z.of_nat a) =? 0))
    (seq 0 (Z.to_nat (len_cart l)))) (combine (seq 0 (length rows)) rows).

Lemma ident_ok l : ident_chk l = true -> identity_block 0%R 1%R sph_coef c2s_off len_cart l.
Proof.
  unfold ident_chk, identity_block. rewrite forallb_forall. intros H m a Hm Ha.
  specialize (H (Z.to_nat m)). rewrite in_seq in H. specialize (H ltac:(lia)). rewrite forallb_forall in H.
  specialize (H (Z.to_nat a)). rewrite in_seq in H. specialize (H ltac:(lia)).
  rewrite !Z2Nat.id in H by lia. apply Z.eqb_eq in H. unfold Tmat, sph_coef. fold (dec (c2s_off l + m * len_cart l + a)).
  rewrite H. unfold unitR.
  destruct (Nat.eqb_spec (Z.to_nat m) (Z.to_nat a)) as [E|E].
  - replace (m =? a) with true by lia. rewrite pow_IZR. cbn [Z.of_nat]. apply Rinv_r.
    apply IZR_neq. discriminate.
  - replace (m =? a) with false by lia. unfold Rdiv. apply Rmult_0_l.
Qed.
Lemma nth_combine_seq {A} (l : list A) k m r : nth_error l m = Some r -> In ((k + m)%nat, r) (combine (seq k (length l)) l).
Proof.
  revert k m. induction l as [|a l IH]; intros k [|m] H; try discriminate; cbn [length seq combine] in *.
  - injection H as ->. left. f_equal. lia.
  - right. replace (k + S m)%nat with (S k + m)%nat by lia. apply IH, H.
Qed.
Lemma skip_ok l rows : skip_chk l rows = true -> skips_zeros 0%R sph_coef c2s_off len_cart l rows.
Proof.
  unfold skip_chk, skips_zeros. rewrite forallb_forall. intros H m r Hr a Ha Hn.
  specialize (H _ (nth_combine_seq rows 0 m r Hr)). rewrite forallb_forall in H. specialize (H (Z.to_nat a)).
  rewrite in_seq in H. specialize (H ltac:(lia)). cbn [fst snd Nat.add] in H. rewrite Z2Nat.id in H by lia.
  apply Bool.orb_true_iff in H. destruct H as [H|H].
  - exfalso. apply Hn. apply existsb_exists in H. destruct H as [b [Hb E]]. apply Z.eqb_eq in E. subst b. exact Hb.
  - apply Z.eqb_eq in H. unfold Tmat, sph_coef. fold (dec (c2s_off l + Z.of_nat m * len_cart l + a)). rewrite H.
    unfold unitR, Rdiv. apply Rmult_0_l.
Qed.
Lemma sph_table_ok : table_ok 0%R 1%R sph_coef.
Proof.
  constructor; [apply ident_ok|apply ident_ok|apply skip_ok|apply skip_ok|apply skip_ok]; vm_compute; reflexivity.
Qed.

(** ** Output shape *)
Section Shape.
  Context {F : Type}.
  Definition dims_read (hv : bool) (dims : option (arr Z)) (i : Z) : Prop :=
    hv = false -> match dims with Some d => exists n, rd d i = Some n | None => True end.
End Shape.

Section Cart.
  Context {F : Type} (zero : F) (add mul : F -> F -> F) (coef : Z -> F).
  Variables (ng : ngT) (li lj lk ll ci cj ck cl : Z) (e : envs).
  Variables (hv : bool) (dims : option (arr Z)) (out gctr : arr F) (x : Z -> F) (n1 n2 n3 n4 : Z).
  Notation fi := (CINTlen_cart li). Notation fj := (CINTlen_cart lj).
  Notation fk := (CINTlen_cart lk). Notation fl := (CINTlen_cart ll).

  Lemma out1_cart : env1 ng li lj ci cj e ->
    0 <= li <= 15 -> 0 <= lj <= 15 -> 0 <= ci -> 0 <= cj ->
    fi * ci <= n1 -> fj * cj <= n2 -> dims_are dims 2 [n1; n2] [fi * ci; fj * cj] -> dims_read hv dims 2 ->
    room (asize out) (ncompA ng) n1 n2 1 1 (fi * ci) (fj * cj) 1 1 ->
    (hv = true -> reads gctr (ncompA ng * (nf e * ci * cj)) x) ->
    exists out', CINT1e_drv_tail zero add mul coef CartK hv dims out gctr e = Some out' /\
      stored_block out out' (ncompA ng) n1 n2 1 1 (fi * ci) (fj * cj) 1 1
        (fun n I J _ _ => if hv then cart2 x fi fj ci cj n I J else zero).
  Proof.
    intros HE. destruct (env1_ok _ _ _ _ _ _ HE) as [SH [Enf En]]. rewrite <- En. intros.
    eapply tail_1e_cart; eauto.
  Qed.
  Lemma out2c_cart : env2c ng li lj ci cj e ->
    0 <= li <= 15 -> 0 <= lj <= 15 -> 0 <= ci -> 0 <= cj ->
    fi * ci <= n1 -> fj * cj <= n2 -> dims_are dims 2 [n1; n2] [fi * ci; fj * cj] -> dims_read hv dims 2 ->
    room (asize out) (ncompB ng) n1 n2 1 1 (fi * ci) (fj * cj) 1 1 ->
    (hv = true -> reads gctr (ncompB ng * (nf e * ci * cj)) x) ->
    exists out', CINT2c2e_drv_tail zero add mul coef CartK hv dims out gctr e = Some out' /\
      stored_block out out' (ncompB ng) n1 n2 1 1 (fi * ci) (fj * cj) 1 1
        (fun n I J _ _ => if hv then cart2 x fi fj ci cj n I J else zero).
  Proof.
    intros HE. destruct (env2c_ok _ _ _ _ _ _ HE) as [SH [Enf [Efk [Ekl En]]]]. rewrite <- En. intros.
    eapply tail_2c_cart; eauto.
  Qed.
  Lemma out3_cart : env3 ng li lj lk ci cj ck e ->
    0 <= li <= 15 -> 0 <= lj <= 15 -> 0 <= lk <= 15 -> 0 <= ci -> 0 <= cj -> 0 <= ck ->
    fi * ci <= n1 -> fj * cj <= n2 -> fk * ck <= n3 ->
    dims_are dims 3 [n1; n2; n3] [fi * ci; fj * cj; fk * ck] ->
    room (asize out) (ncompA ng) n1 n2 n3 1 (fi * ci) (fj * cj) (fk * ck) 1 ->
    (hv = true -> reads gctr (ncompA ng * (nf e * ci * cj * ck)) x) ->
    exists out', CINT3c2e_drv_tail zero add mul coef CartK false hv dims out gctr e = Some out' /\
      stored_block out out' (ncompA ng) n1 n2 n3 1 (fi * ci) (fj * cj) (fk * ck) 1
        (fun n I J K _ => if hv then cart3 x fi fj fk ci cj ck n I J K else zero).
  Proof.
    intros HE. destruct (env3_ok _ _ _ _ _ _ _ _ HE) as [SH [Efk [Enf En]]]. rewrite <- En. intros.
    eapply tail_3c_cart; eauto.
  Qed.
  Lemma out4_cart : env4 ng li lj lk ll ci cj ck cl e ->
    0 <= li <= 15 -> 0 <= lj <= 15 -> 0 <= lk <= 15 -> 0 <= ll <= 15 -> 0 <= ci -> 0 <= cj -> 0 <= ck -> 0 <= cl ->
    fi * ci <= n1 -> fj * cj <= n2 -> fk * ck <= n3 -> fl * cl <= n4 ->
    dims_are dims 4 [n1; n2; n3; n4] [fi * ci; fj * cj; fk * ck; fl * cl] ->
    room (asize out) (ncompB ng) n1 n2 n3 n4 (fi * ci) (fj * cj) (fk * ck) (fl * cl) ->
    (hv = true -> reads gctr (ncompB ng * (nf e * ci * cj * ck * cl)) x) ->
    exists out', CINT2e_drv_tail zero add mul coef CartK hv dims out gctr e = Some out' /\
      stored_block out out' (ncompB ng) n1 n2 n3 n4 (fi * ci) (fj * cj) (fk * ck) (fl * cl)
        (fun n I J K L => if hv then cart4 x fi fj fk fl ci cj ck cl n I J K L else zero).
  Proof.
    intros HE. destruct (env4_ok _ _ _ _ _ _ _ _ _ _ HE) as [SH [Efk [Efl [Enf En]]]]. rewrite <- En. intros.
    eapply tail_2e_cart; eauto.
  Qed.
  Lemma outg_cart ngrids : envg ng li lj ci cj e ->
    0 <= li <= 15 -> 0 <= lj <= 15 -> 0 <= ci -> 0 <= cj -> 0 <= ngrids ->
    fi * ci <= n1 -> fj * cj <= n2 -> ngrids <= n3 ->
    dims_are dims 3 [n1; n2; n3] [fi * ci; fj * cj; ngrids] -> dims_read hv dims 3 ->
    room (asize out) (ncompA ng) n3 n1 n2 1 ngrids (fi * ci) (fj * cj) 1 ->
    (hv = true -> reads gctr (ncompA ng * (ngrids * nf e * ci * cj)) x) ->
    exists out', CINT1e_grids_drv_tail zero add mul coef CartK hv dims ngrids out gctr e = Some out' /\
      stored_block out out' (ncompA ng) n3 n1 n2 1 ngrids (fi * ci) (fj * cj) 1
        (fun n g I J _ => if hv then cart_grid x fi fj ci cj ngrids GRID_BLKSIZE n g I J else zero).
  Proof.
    intros HE. destruct (envg_ok _ _ _ _ _ _ HE) as [SH [Enf En]]. rewrite <- En. intros.
    eapply tail_grids_cart; eauto.
  Qed.
End Cart.

Section Sph.
  Variables (ng : ngT) (li lj lk ll ci cj ck cl : Z) (e : envs).
  Variables (hv : bool) (dims : option (arr Z)) (out gctr : arr R) (x : Z -> R) (n1 n2 n3 n4 : Z).
  Notation fi := (CINTlen_cart li). Notation fj := (CINTlen_cart lj).
  Notation fk := (CINTlen_cart lk). Notation fl := (CINTlen_cart ll).
  Notation si := (li * 2 + 1). Notation sj := (lj * 2 + 1). Notation sk := (lk * 2 + 1). Notation sl := (ll * 2 + 1).
  Notation SPH f := (f 0%R Rplus Rmult sph_coef c2s_off CINTlen_cart).

  Lemma out1_sph : env1 ng li lj ci cj e ->
    0 <= li <= 15 -> 0 <= lj <= 15 -> 0 <= ci -> 0 <= cj ->
    si * ci <= n1 -> sj * cj <= n2 -> dims_are dims 2 [n1; n2] [si * ci; sj * cj] -> dims_read hv dims 2 ->
    room (asize out) (ncompA ng) n1 n2 1 1 (si * ci) (sj * cj) 1 1 ->
    (hv = true -> reads gctr (ncompA ng * (nf e * ci * cj)) x) ->
    exists out', CINT1e_drv_tail 0%R Rplus Rmult sph_coef SphK hv dims out gctr e = Some out' /\
      stored_block out out' (ncompA ng) n1 n2 1 1 (si * ci) (sj * cj) 1 1
        (fun n I J _ _ => if hv then SPH sph_ij li lj
           (batch2 x (fi * fj) ci cj n (I / si) (J / sj)) (I mod si) (J mod sj) else 0%R).
  Proof.
    intros HE. destruct (env1_ok _ _ _ _ _ _ HE) as [SH [Enf En]]. rewrite <- En. intros.
    eapply tail_1e_sph; eauto using RTheory, sph_table_ok.
  Qed.
  Lemma out2c_sph : env2c ng li lj ci cj e ->
    0 <= li <= 15 -> 0 <= lj <= 15 -> 0 <= ci -> 0 <= cj ->
    si * ci <= n1 -> sj * cj <= n2 -> dims_are dims 2 [n1; n2] [si * ci; sj * cj] -> dims_read hv dims 2 ->
    room (asize out) (ncompB ng) n1 n2 1 1 (si * ci) (sj * cj) 1 1 ->
    (hv = true -> reads gctr (ncompB ng * (nf e * ci * cj)) x) ->
    exists out', CINT2c2e_drv_tail 0%R Rplus Rmult sph_coef SphK hv dims out gctr e = Some out' /\
      stored_block out out' (ncompB ng) n1 n2 1 1 (si * ci) (sj * cj) 1 1
        (fun n I J _ _ => if hv then SPH sph_ij li lj
           (batch2 x (fi * fj) ci cj n (I / si) (J / sj)) (I mod si) (J mod sj) else 0%R).
  Proof.
    intros HE. destruct (env2c_ok _ _ _ _ _ _ HE) as [SH [Enf [Efk [Ekl En]]]]. rewrite <- En. intros.
    eapply tail_2c_sph; eauto using RTheory, sph_table_ok.
  Qed.
  Lemma out3_sph : env3 ng li lj lk ci cj ck e ->
    0 <= li <= 15 -> 0 <= lj <= 15 -> 0 <= lk <= 15 -> 0 <= ci -> 0 <= cj -> 0 <= ck ->
    si * ci <= n1 -> sj * cj <= n2 -> sk * ck <= n3 ->
    dims_are dims 3 [n1; n2; n3] [si * ci; sj * cj; sk * ck] ->
    room (asize out) (ncompA ng) n1 n2 n3 1 (si * ci) (sj * cj) (sk * ck) 1 ->
    (hv = true -> reads gctr (ncompA ng * (nf e * ci * cj * ck)) x) ->
    exists out', CINT3c2e_drv_tail 0%R Rplus Rmult sph_coef SphK false hv dims out gctr e = Some out' /\
      stored_block out out' (ncompA ng) n1 n2 n3 1 (si * ci) (sj * cj) (sk * ck) 1
        (fun n I J K _ => if hv then SPH sph_ijk li lj lk
           (batch3 x (fi * fk * fj) ci cj ck n (I / si) (J / sj) (K / sk)) (I mod si) (J mod sj) (K mod sk) else 0%R).
  Proof.
    intros HE. destruct (env3_ok _ _ _ _ _ _ _ _ HE) as [SH [Efk [Enf En]]]. rewrite <- En. intros.
    eapply tail_3c_sph; eauto using RTheory, sph_table_ok.
  Qed.
  Lemma out4_sph : env4 ng li lj lk ll ci cj ck cl e ->
    0 <= li <= 15 -> 0 <= lj <= 15 -> 0 <= lk <= 15 -> 0 <= ll <= 15 -> 0 <= ci -> 0 <= cj -> 0 <= ck -> 0 <= cl ->
    si * ci <= n1 -> sj * cj <= n2 -> sk * ck <= n3 -> sl * cl <= n4 ->
    dims_are dims 4 [n1; n2; n3; n4] [si * ci; sj * cj; sk * ck; sl * cl] ->
    room (asize out) (ncompB ng) n1 n2 n3 n4 (si * ci) (sj * cj) (sk * ck) (sl * cl) ->
    (hv = true -> reads gctr (ncompB ng * (nf e * ci * cj * ck * cl)) x) ->
    exists out', CINT2e_drv_tail 0%R Rplus Rmult sph_coef SphK hv dims out gctr e = Some out' /\
      stored_block out out' (ncompB ng) n1 n2 n3 n4 (si * ci) (sj * cj) (sk * ck) (sl * cl)
        (fun n I J K L => if hv then SPH sph_ijkl li lj lk ll
           (batch4 x (fi * fk * fl * fj) ci cj ck cl n (I / si) (J / sj) (K / sk) (L / sl))
           (I mod si) (J mod sj) (K mod sk) (L mod sl) else 0%R).
  Proof.
    intros HE. destruct (env4_ok _ _ _ _ _ _ _ _ _ _ HE) as [SH [Efk [Efl [Enf En]]]]. rewrite <- En. intros.
    eapply tail_2e_sph; eauto using RTheory, sph_table_ok.
  Qed.
  Lemma outg_sph ngrids : envg ng li lj ci cj e ->
    0 <= li <= 15 -> 0 <= lj <= 15 -> 0 <= ci -> 0 <= cj -> 0 <= ngrids ->
    si * ci <= n1 -> sj * cj <= n2 -> ngrids <= n3 ->
    dims_are dims 3 [n1; n2; n3] [si * ci; sj * cj; ngrids] -> dims_read hv dims 3 ->
    room (asize out) (ncompA ng) n3 n1 n2 1 ngrids (si * ci) (sj * cj) 1 ->
    (hv = true -> reads gctr (ncompA ng * (ngrids * nf e * ci * cj)) x) ->
    exists out', CINT1e_grids_drv_tail 0%R Rplus Rmult sph_coef SphK hv dims ngrids out gctr e = Some out' /\
      stored_block out out' (ncompA ng) n3 n1 n2 1 ngrids (si * ci) (sj * cj) 1
        (fun n g I J _ => if hv then SPH sph_grid li lj (Z.min (ngrids - g / GRID_BLKSIZE * GRID_BLKSIZE) GRID_BLKSIZE)
           (batch_grid x (fi * fj) ci cj ngrids GRID_BLKSIZE n (I / si) (J / sj) g)
           (I mod si) (J mod sj) (g mod GRID_BLKSIZE) else 0%R).
  Proof.
    intros HE. destruct (envg_ok _ _ _ _ _ _ HE) as [SH [Enf En]]. rewrite <- En. intros.
    eapply tail_grids_sph; eauto using RTheory, sph_table_ok.
  Qed.
End Sph.

(** ** Components do not overlap *)
Lemma digit_lt a b n m : 0 <= b < n -> 0 <= a < m -> 0 <= a * n + b < m * n.
Proof. intros. nia. Qed.
Lemma digit_inj a b a' b' n : 0 <= b < n -> 0 <= b' < n -> a * n + b = a' * n + b' -> a = a' /\ b = b'.
Proof. intros. assert (a = a') by nia. subst. lia. Qed.

Lemma place_inj n1 n2 n3 n4 n i1 i2 i3 i4 n' j1 j2 j3 j4 :
  0 <= i1 < n1 -> 0 <= i2 < n2 -> 0 <= i3 < n3 -> 0 <= i4 < n4 ->
  0 <= j1 < n1 -> 0 <= j2 < n2 -> 0 <= j3 < n3 -> 0 <= j4 < n4 ->
  place n1 n2 n3 n4 n i1 i2 i3 i4 = place n1 n2 n3 n4 n' j1 j2 j3 j4 ->
  n = n' /\ i1 = j1 /\ i2 = j2 /\ i3 = j3 /\ i4 = j4.
Proof.
  unfold place. intros H1 H2 H3 H4 G1 G2 G3 G4 E.
  apply digit_inj in E; [|assumption|assumption]. destruct E as [E ->].
  apply digit_inj in E; [|assumption|assumption]. destruct E as [E ->].
  apply digit_inj in E; [|assumption|assumption]. destruct E as [E ->].
  apply digit_inj in E; [|assumption|assumption]. destruct E as [-> ->]. auto.
Qed.
Lemma place_range n1 n2 n3 n4 n i1 i2 i3 i4 :
  0 <= i1 < n1 -> 0 <= i2 < n2 -> 0 <= i3 < n3 -> 0 <= i4 < n4 ->
  n * (n1 * n2 * n3 * n4) <= place n1 n2 n3 n4 n i1 i2 i3 i4 < (n + 1) * (n1 * n2 * n3 * n4).
Proof.
  intros H1 H2 H3 H4. unfold place.
  pose proof (digit_lt i4 i3 n3 n4 H3 H4) as A. pose proof (digit_lt _ i2 n2 _ H2 A) as B.
  pose proof (digit_lt _ i1 n1 _ H1 B) as C.
  replace ((((n * n4 + i4) * n3 + i3) * n2 + i2) * n1 + i1)
    with (n * (n1 * n2 * n3 * n4) + (((i4 * n3 + i3) * n2 + i2) * n1 + i1)) by ring.
  replace ((n + 1) * (n1 * n2 * n3 * n4)) with (n * (n1 * n2 * n3 * n4) + n4 * n3 * n2 * n1) by ring. lia.
Qed.
(** packed: every cell of the first ncomp * n1 n2 n3 n4 is the place of one element *)
Lemma place_onto n1 n2 n3 n4 q : 0 < n1 -> 0 < n2 -> 0 < n3 -> 0 < n4 ->
  exists n i1 i2 i3 i4, 0 <= i1 < n1 /\ 0 <= i2 < n2 /\ 0 <= i3 < n3 /\ 0 <= i4 < n4 /\
    q = place n1 n2 n3 n4 n i1 i2 i3 i4.
Proof.
  intros H1 H2 H3 H4.
  exists (q / n1 / n2 / n3 / n4), (q mod n1), (q / n1 mod n2), (q / n1 / n2 mod n3), (q / n1 / n2 / n3 mod n4).
  repeat (split; [apply Z.mod_pos_bound; assumption|]). unfold place.
  rewrite (Z.mul_comm _ n4), <- (Z.div_mod _ n4) by lia.
  rewrite (Z.mul_comm _ n3), <- (Z.div_mod _ n3) by lia.
  rewrite (Z.mul_comm _ n2), <- (Z.div_mod _ n2) by lia.
  rewrite (Z.mul_comm _ n1), <- (Z.div_mod _ n1) by lia. reflexivity.
Qed.
