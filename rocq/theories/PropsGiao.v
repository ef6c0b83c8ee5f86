(** PropsGiao.v — C61: the early returns of the gauge-origin entry points.

    20 names x 3 forms of generated entry points store zeros and return when the two shells of a
    pair are the same shell.  Here: the documented integrals are then zero and so is everything the
    integrand function adds to gout, and the zeros are stored by the same loop, over the same block
    and components, as the driver does when it finds no value. *)
From Coq Require Import Reals Lra QArith Qreals String.
From Coquelicot Require Import Coquelicot.
From Verif Require Import Base EnvModel OpSpec OutModel SpinorModel IntgModel IntgSpec IntgTab IntgStmt IntgCheck IntgAll IntgEx IntgProps GiaoModel GiaoProof.
Local Open Scope Z_scope.

(** Shell s has its centre at [pt s].  Whatever the one-dimensional integrals are, every documented
    component of every spin is zero. *)
Theorem C61_zero t shls (pt : Z -> Z -> R) a O I rts pw qs s1 s2 : In t catalogue -> early (en_name (t_e t)) shls = true ->
  In qs (spec_pairs (t_d t)) -> den a (fun c ax => pt (shls (slot c)) ax) O I rts pw (spec_of (t_d t) qs s1 s2) = RtoC 0.
Proof. exact (early_zero t shls pt a O I rts pw qs s1 s2). Qed.
Print Assumptions C61_zero.

(** The integrand function, had it been called, would have stored zeros or left gout as it was. *)
Theorem C61_gout t : In t catalogue -> ~ In (en_name (t_e t)) except_names ->
  forall shls (pt : Z -> Z -> R) ng om l ctr x I pw empty idx m gout, early (en_name (t_e t)) shls = true ->
  x_R x = (fun c ax => pt (shls (slot c)) ax) ->
  call t ng om l ctr x I pw empty idx m gout ->
  (In (en_name (t_e t)) parts_names -> by_parts (x_a x) (x_R x) I) ->
  exists gout', run_gout 0%R 1%R Rplus Rmult Rminus IZR x (t_f t) empty idx m gout = Some gout' /\
    forall n ig k, valid x t n ig k -> if empty then rd gout' (pos x t n ig k) = Some 0%R else rd gout' (pos x t n ig k) = rd gout (pos x t n ig k).
Proof. exact (early_gout t). Qed.
Print Assumptions C61_gout.

(** The block that is zeroed is the driver's (C19 says what that is); one electron and four centres. *)
Theorem C61_fill {F} (zero : F) add mul sub opp isz tJR tJI coef dims (out gctr : arr F) (e : envs) :
  zero_1e_cart zero dims out e = CINT1e_drv_tail zero add mul coef CartK false dims out gctr e /\
  zero_1e_sph zero dims out e = CINT1e_drv_tail zero add mul coef SphK false dims out gctr e /\
  (forall s p ki kj, zero_1e_spinor zero ki kj dims out e = CINT1e_spinor_drv_tail zero add mul sub opp isz tJR tJI s p ki kj false dims out gctr e) /\
  zero_2e_cart zero dims out e = CINT2e_drv_tail zero add mul coef CartK false dims out gctr e /\
  zero_2e_sph zero dims out e = CINT2e_drv_tail zero add mul coef SphK false dims out gctr e /\
  (forall s1 p1 s2 p2 ki kj kk kl, zero_2e_spinor zero ki kj kk kl dims out e =
     CINT2e_spinor_drv_tail zero add mul sub opp isz tJR tJI s1 p1 s2 p2 ki kj kk kl false dims out gctr e).
Proof. repeat split. Qed.
Print Assumptions C61_fill.

(** Three centres: the entry point counts ncomp_e1 * ncomp_e2 * ncomp_tensor components (the spinor
    one ncomp_tensor), the driver ncomp_e1 * ncomp_tensor (ncomp_e2 * ncomp_tensor); the same for the
    entry that has the test. *)
Theorem C61_fill_3c {F} (zero : F) add mul sub opp isz tJR tJI coef dims (out gctr : arr F) t ng om (l ctr : centre -> Z) :
  In t catalogue -> In (en_name (t_e t)) (map fst same_pair) -> en_fam (t_e t) = F3c2e -> ent_ng t = Some ng ->
  let e := fam_env F3c2e om ng l ctr in
  zero_3c_cart zero dims out e = CINT3c2e_drv_tail zero add mul coef CartK false false dims out gctr e /\
  zero_3c_sph zero dims out e = CINT3c2e_drv_tail zero add mul coef SphK false false dims out gctr e /\
  (forall s p ki kj, zero_3c_spinor zero ki kj dims out e =
     CINT3c2e_spinor_drv_tail zero add mul sub opp isz tJR tJI coef false s p ki kj false dims out gctr e).
Proof.
  intros Ht Hn Hf En e. pose proof (three_e2 t ng Ht Hn Hf En) as E2.
  assert (Ee : ncomp_e2 e = 1) by exact E2.
  unfold zero_3c_cart, zero_3c_sph, zero_3c_spinor, CINT3c2e_drv_tail, CINT3c2e_spinor_drv_tail. rewrite Ee, Z.mul_1_r, Z.mul_1_l.
  repeat split.
Qed.
Print Assumptions C61_fill_3c.

(** The table names entries of the catalogue, and the entries are of the families above. *)
Theorem C61_names : forall r, In r same_pair -> exists t, In t catalogue /\ en_name (t_e t) = fst r /\ In (en_fam (t_e t)) [F1e; F1nuc; F1rinv; F2e; F3c2e].
Proof.
  intros r Hr. pose proof (proj1 (forallb_forall _ _) names_checked r Hr) as C1. cbv beta in C1. apply existsb_exists in C1.
  destruct C1 as (t & Ht & E). apply String.eqb_eq in E. exists t. split; [exact Ht|]. split; [symmetry; exact E|].
  pose proof (proj1 (forallb_forall _ _) diff_checked t Ht) as C2. unfold diff_ok in C2. apply andb_true_iff in C2. destruct C2 as [_ C2].
  destruct (pairs_of t) eqn:EP.
  - exfalso. assert (Ne : forallb (fun r => match snd r with [] => false | _ => true end) same_pair = true) by reflexivity.
    pose proof (proj1 (forallb_forall _ _) Ne r Hr) as Z1. cbv beta in Z1. destruct (snd r) as [|p ps] eqn:Es; [discriminate|].
    assert (Y : In p (pairs_of t)) by (unfold pairs_of; apply in_flat_map; exists r; split; [exact Hr|]; rewrite E, String.eqb_refl, Es; left; reflexivity).
    rewrite EP in Y. exact Y.
  - destruct (en_fam (t_e t)); cbn; try discriminate; tauto.
Qed.
Print Assumptions C61_names.

(** int1e_igovlp of shell 2 with itself returns early, of shells 2 and 3 not, and the integral is
    then not zero for every choice of the one-dimensional integrals. *)
Example C61_example : early "int1e_igovlp" (fun _ => 2) = true /\ early "int1e_igovlp" (fun s => 2 + s) = false /\
  early "int1e_ovlp" (fun _ => 2) = false /\ early "int2e_g1g2" (fun s => if s <? 2 then s else 2) = true.
Proof. repeat split. Qed.
Example C61_example2 : exists qs, In qs (spec_pairs (t_d e_int1e_igovlp)) /\
  den (fun _ => 1%R) (fun c ax => match c with CI => 1%R | _ => 0%R end) (fun _ => 0%R) (fun ax o f => f CI (IZR ax)) [0] (fun _ _ => 0)
    (spec_of (t_d e_int1e_igovlp) qs S1 S1) <> RtoC 0.
Proof.
  eexists. split; [left; reflexivity|].
  unfold den. vm_compute (spec_of _ _ _ _). cbn [map csum fold_right fst snd].
  unfold mval, kpow, term, word_fun, base, phi. simpl.
  set (x := exp _). set (y := exp _). set (z := exp _).
  assert (0 < x)%R by apply exp_pos. assert (0 < y)%R by apply exp_pos. assert (0 < z)%R by apply exp_pos.
  intros E. apply (f_equal fst) in E. unfold cval, Q2R in E. cbn in E.
  assert (0 < x * y * z)%R by (repeat apply Rmult_lt_0_compat; assumption). nra.
Qed.
