(** Loop3Final.v — the loop lemmas in the vocabulary of Loop3Spec.v. *)
From Verif Require Import Base BasSpec BasProof FblasModel FblasSpec FblasProof CtrModel CtrSpec CtrProof
  LoopSpec LoopProof Loop2eModel Loop2eSpec Loop2eProof Loop2eFinal Loop3Model Loop3Spec Loop3Proof.
From Coq Require Import ZifyBool ZifyNat Ring Ring_theory.

Section Wrap.
  Context {F : Type} (zero one : F) (add mul sub : F -> F -> F) (opp : F -> F).
  Hypothesis Rth : ring_theory zero one add mul sub opp (@eq F).
  Variable isz : F -> bool.
  Hypothesis isz_zero : forall c, isz c = true -> c = zero.
  Add Ring W1 : Rth.
  Notation Acc := (Acc zero add).
  Notation Z0 := (sum_zero zero one add mul sub opp Rth isz isz_zero).

  Lemma contract3_none npi npj npk keep cfi cfj cfk val ic jc kc x :
    (forall ip jp kp, keep ip jp kp = false) ->
    contract3 zero add mul npi npj npk keep cfi cfj cfk val ic jc kc x = zero.
  Proof.
    intros H. unfold contract3. apply Z0. intros kp _. apply Z0. intros jp _. apply Z0. intros ip _.
    rewrite H. reflexivity.
  Qed.
  Lemma contract3_ext npi npj npk keep keep' cfi cfj cfk val ic jc kc x :
    (forall ip jp kp, keep ip jp kp = keep' ip jp kp) ->
    contract3 zero add mul npi npj npk keep cfi cfj cfk val ic jc kc x =
    contract3 zero add mul npi npj npk keep' cfi cfj cfk val ic jc kc x.
  Proof.
    intros H. unfold contract3. apply lsum_ext. intros kp _. apply lsum_ext. intros jp _.
    apply lsum_ext. intros ip _. rewrite H. reflexivity.
  Qed.
  Lemma contract2_ext npi npj keep keep' cfi cfj val ic jc x :
    (forall ip jp, keep ip jp = keep' ip jp) ->
    contract2 zero add mul npi npj keep cfi cfj val ic jc x =
    contract2 zero add mul npi npj keep' cfi cfj val ic jc x.
  Proof.
    intros H. unfold contract2. apply lsum_ext. intros jp _. apply lsum_ext. intros ip _. rewrite H. reflexivity.
  Qed.
  Lemma contract4_ext npi npj npk npl keep keep' cfi cfj cfk cfl val ic jc kc lc x :
    (forall ip jp kp lp, keep ip jp kp lp = keep' ip jp kp lp) ->
    contract4 zero add mul npi npj npk npl keep cfi cfj cfk cfl val ic jc kc lc x =
    contract4 zero add mul npi npj npk npl keep' cfi cfj cfk cfl val ic jc kc lc x.
  Proof.
    intros H. unfold contract4. apply lsum_ext. intros lp _. apply lsum_ext. intros kp _.
    apply lsum_ext. intros jp _. apply lsum_ext. intros ip _. rewrite H. reflexivity.
  Qed.
  Lemma some3_ext npi npj npk keep keep' : (forall ip jp kp, keep ip jp kp = keep' ip jp kp) ->
    some3 npi npj npk keep <-> some3 npi npj npk keep'.
  Proof. intros H. split; intros (i & j & k & ? & ? & ? & E); exists i, j, k; [rewrite <- H|rewrite H]; auto. Qed.
  Lemma some2_ext npi npj keep keep' : (forall ip jp, keep ip jp = keep' ip jp) ->
    some2 npi npj keep <-> some2 npi npj keep'.
  Proof. intros H. split; intros (i & j & ? & ? & E); exists i, j; [rewrite <- H|rewrite H]; auto. Qed.
  Lemma some4_ext npi npj npk npl keep keep' : (forall ip jp kp lp, keep ip jp kp lp = keep' ip jp kp lp) ->
    some4 npi npj npk npl keep <-> some4 npi npj npk npl keep'.
  Proof. intros H. split; intros (i & j & k & l & ? & ? & ? & ? & E); exists i, j, k, l; [rewrite <- H|rewrite H]; auto. Qed.

  Lemma accumulated_ext (m m' : mem F) rows nc (P P' : Prop) T V V' : (P <-> P') ->
    (forall r c, 0 <= r < rows -> 0 <= c < nc -> V r c = V' r c) ->
    accumulated add m m' rows nc P T V -> accumulated add m m' rows nc P' T V'.
  Proof.
    intros HP HV (A1 & A2 & A3 & A4). unfold accumulated. rewrite <- HP.
    repeat split; try tauto; auto.
    intros E r c Hr Hc. rewrite (A4 E r c Hr Hc), (HV r c Hr Hc). reflexivity.
  Qed.

  (** generic wrapper for the adding loops *)
  Lemma wrap_adds early ig own lvl n_comp rows nfnc (op : mem F -> option (mem F)) any b m T (P : Prop) V :
    (own < 5)%nat -> (lvl <= 5)%nat -> 1 <= n_comp -> 0 <= rows -> nfnc = rows ->
    (early = false -> Acc ig (fun t => asize (buf m t)) lvl (alias n_comp 5 own) (alias n_comp 5 own) (rows * n_comp) op any b) ->
    caller_holds m rows n_comp T ->
    (n_comp <> 1 -> rows * n_comp <= asize (buf m own)) ->
    (early = true -> ~ P /\ forall r c, 0 <= r < rows -> 0 <= c < n_comp -> V r c = zero) ->
    (early = false -> (any = true <-> P) /\
       forall r c, 0 <= r < rows -> 0 <= c < n_comp -> b (r * n_comp + c) = V r c) ->
    adds add m rows n_comp early P T V
      (if early then Some (m, false) else
        m <- op (reset_flags m) ;;
        m <- (if (1 <? n_comp) && negb (flg m (alias n_comp 5 own)) then TRANSPOSE add (alias n_comp 5 own) nfnc n_comp m else Some m) ;;
        Some (m, negb (flg m 5%nat))).
  Proof.
    intros Hown Hlvl Hn Hr -> Hacc Hcall Hsz He Hne. destruct early.
    - destruct (He eq_refl) as [NP HV]. exists m, false. split; [reflexivity|].
      split; [discriminate|]. split; [reflexivity|]. unfold accumulated.
      split; [tauto|]. split; [reflexivity|]. split; [reflexivity|].
      intros Ef r c Hr' Hc'. rewrite Ef. destruct Hcall as [_ HT]. rewrite HT by auto. f_equal.
      rewrite HV by assumption. ring.
    - destruct (Hne eq_refl) as [HP HV]. specialize (Hacc eq_refl).
      pose proof (finish zero one add mul sub opp Rth ig (fun t => asize (buf m t)) lvl own n_comp
                 rows (alias n_comp 5 own) op any b (reset_flags m) T Hown Hn Hr eq_refl Hlvl Hacc) as K.
      assert (K' := K ltac:(split; [reflexivity|cbn; lia])
        ltac:(cbn; destruct (Nat.eqb_spec own 5); [lia|reflexivity]) Hcall Hsz). clear K.
      apply wp_exists in K'. destruct K' as [[m' ret] [E [R1 R2]]]. exists m', ret.
      split; [exact E|]. cbn [fst snd] in *. split; [intros _; exact R1|]. split; [discriminate|].
      change (accumulated add m m' rows n_comp (any = true) T (fun r c => b (r * n_comp + c))) in R2.
      eapply accumulated_ext; [exact HP|exact HV|exact R2].
  Qed.

  Lemma wrap_makes early ig own lvl n_comp rows nfnc (op : mem F -> option (mem F)) any b m (P : Prop) V :
    (own < 5)%nat -> (lvl <= 5)%nat -> 1 <= n_comp -> 0 <= rows -> nfnc = rows ->
    (early = false -> Acc ig (fun t => asize (buf m t)) lvl (alias n_comp 5 own) (alias n_comp 5 own) (rows * n_comp) op any b) ->
    rows * n_comp <= asize (buf m 5%nat) ->
    (n_comp <> 1 -> rows * n_comp <= asize (buf m own)) ->
    (early = true -> ~ P) ->
    (early = false -> (any = true <-> P) /\
       forall r c, 0 <= r < rows -> 0 <= c < n_comp -> b (r * n_comp + c) = V r c) ->
    makes m rows n_comp P V
      (if early then Some (m, false) else
        m <- op (set_flags m) ;;
        m <- (if (1 <? n_comp) && negb (flg m (alias n_comp 5 own)) then DMAT (alias n_comp 5 own) nfnc n_comp m else Some m) ;;
        Some (m, negb (flg m (alias n_comp 5 own)))).
  Proof.
    intros Hown Hlvl Hn Hr -> Hacc H5 Hsz He Hne. destruct early.
    - specialize (He eq_refl). exists m, false. split; [reflexivity|]. unfold produced.
      split; [split; [discriminate|tauto]|]. split; [reflexivity|]. split; [reflexivity|discriminate].
    - destruct (Hne eq_refl) as [HP HV]. specialize (Hacc eq_refl).
      pose proof (finish_local zero one add mul sub opp Rth ig (fun t => asize (buf m t)) lvl own n_comp
                 rows (alias n_comp 5 own) op any b (set_flags m) Hown Hn Hr eq_refl Hlvl Hacc) as K.
      assert (K' := K ltac:(split; [reflexivity|cbn; lia]) eq_refl H5 Hsz). clear K.
      apply wp_exists in K'. destruct K' as [[m' ret] [E R]]. exists m', ret.
      split; [exact E|]. eapply produced_ext; [exact HP|exact HV|exact R].
  Qed.

  Lemma adds_same (m1 m2 : mem F) rows n_comp early P T V r1 r2 :
    buf m2 5%nat = buf m1 5%nat -> flg m2 5%nat = flg m1 5%nat ->
    adds add m1 rows n_comp early P T V r1 -> adds add m2 rows n_comp early P T V r2 ->
    same_added rows n_comp r1 r2.
  Proof.
    intros Eb Ef (a & ra & E1 & R1 & R1' & A1 & A2 & A3 & A4) (b & rb & E2 & R2 & R2' & B1 & B2 & B3 & B4).
    exists a, b, ra, rb. split; [exact E1|]. split; [exact E2|].
    rewrite Eb, Ef in *.
    assert (Efl : flg a 5%nat = flg b 5%nat).
    { destruct (flg a 5%nat), (flg b 5%nat); try reflexivity.
      - exfalso. assert (true = false); [|discriminate]. apply A1, B1. reflexivity.
      - exfalso. assert (true = false); [|discriminate]. apply B1, A1. reflexivity. }
    split.
    { destruct early; [rewrite R1', R2' by reflexivity|rewrite R1, R2, Efl by reflexivity]; reflexivity. }
    split; [exact Efl|]. split.
    - intros H r c Hr Hc. rewrite (A4 H r c Hr Hc). rewrite Efl in H. rewrite (B4 H r c Hr Hc). reflexivity.
    - intros x Hx. rewrite A3, B3 by exact Hx. reflexivity.
  Qed.
  Lemma makes_same (m1 m2 : mem F) rows n_comp P V r1 r2 :
    makes m1 rows n_comp P V r1 -> makes m2 rows n_comp P V r2 -> same_made rows n_comp r1 r2.
  Proof.
    intros (a & ra & E1 & A1 & A2 & A3 & A4) (b & rb & E2 & B1 & B2 & B3 & B4).
    exists a, b, ra, rb. split; [exact E1|]. split; [exact E2|].
    assert (Er : ra = rb).
    { destruct ra, rb; try reflexivity.
      - symmetry. apply B1, A1. reflexivity.
      - apply A1, B1. reflexivity. }
    split; [exact Er|].
    intros H r c Hr Hc. rewrite (A4 H r c Hr Hc). rewrite Er in H. rewrite (B4 H r c Hr Hc). reflexivity.
  Qed.
End Wrap.

Section Final3.
  Context {F : Type} (zero one : F) (add mul sub : F -> F -> F) (opp : F -> F).
  Hypothesis Rth : ring_theory zero one add mul sub opp (@eq F).
  Variable isz : F -> bool.
  Hypothesis isz_zero : forall c, isz c = true -> c = zero.
  Add Ring W2 : Rth.

  Variables (n_comp nf : Z) (si sj sk sl : shl F) (cfi cfj cfk cfl : Z -> Z -> F).
  Hypothesis Hi : shell_of isz si cfi.
  Hypothesis Hj : shell_of isz sj cfj.
  Hypothesis Hk : shell_of isz sk cfk.
  Hypothesis Hl : shell_of isz sl cfl.
  Hypothesis Hnf : 0 <= nf.
  Hypothesis Hnc : 1 <= n_comp.
  Variable common : F.
  Let Hi' := shell_of_ok zero one isz isz_zero si cfi Hi.
  Let Hj' := shell_of_ok zero one isz isz_zero sj cfj Hj.
  Let Hk' := shell_of_ok zero one isz isz_zero sk cfk Hk.
  Let Hl' := shell_of_ok zero one isz isz_zero sl cfl Hl.
  Let C1 := shell_ctr1 isz si cfi Hi'.
  Let C2 := shell_ctr1 isz sj cfj Hj'.
  Let C3 := shell_ctr1 isz sk cfk Hk'.
  Let C4 := shell_ctr1 isz sl cfl Hl'.
  Notation ci := (s_ctr si). Notation cj := (s_ctr sj). Notation ck := (s_ctr sk). Notation cl := (s_ctr sl).
  Notation len0 := (nf * n_comp).

  Lemma l3 : nf * ci * n_comp = len0 * ci /\ nf * ci * cj * n_comp = len0 * ci * cj /\
    nf * ci * cj * ck * n_comp = len0 * ci * cj * ck.
  Proof. repeat split; ring. Qed.

  Lemma fits3 (m : mem F) : fits m (scratch3 n_comp nf si sj sk) ->
    (ci <> 1 -> len0 <= asize (buf m 0%nat)) /\ (cj <> 1 -> len0 * ci <= asize (buf m 1%nat)) /\
    (ck <> 1 -> len0 * ci * cj <= asize (buf m 2%nat)) /\
    (n_comp <> 1 -> len0 * ci * cj * ck <= asize (buf m 3%nat)).
  Proof.
    intros H. unfold fits, scratch3, needs in H.
    repeat split; intros E; apply H; apply Z.eqb_neq in E; rewrite E; cbn [negb]; rewrite !in_app_iff; cbn; auto 10.
  Qed.
  Lemma fits3s (m : mem F) own : fits m (scratch3_special n_comp nf si sj sk own) ->
    (own <> 0%nat -> len0 <= asize (buf m 0%nat)) /\
    (n_comp <> 1 -> len0 * ci * cj * ck <= asize (buf m own)).
  Proof.
    intros H. unfold fits, scratch3_special, needs in H. split; intros E; apply H; rewrite in_app_iff.
    - apply Nat.eqb_neq in E. rewrite E. cbn. auto.
    - apply Z.eqb_neq in E. rewrite E. cbn. auto.
  Qed.
  Lemma fits2 (m : mem F) : fits m (scratch2 n_comp nf si sj) ->
    (ci <> 1 -> len0 <= asize (buf m 0%nat)) /\ (cj <> 1 -> len0 * ci <= asize (buf m 1%nat)) /\
    (n_comp <> 1 -> len0 * ci * cj <= asize (buf m 2%nat)).
  Proof.
    intros H. unfold fits, scratch2, needs in H.
    repeat split; intros E; apply H; apply Z.eqb_neq in E; rewrite E; cbn [negb]; rewrite !in_app_iff; cbn; auto 10.
  Qed.
  Lemma fits4 (m : mem F) : fits m (scratch4 n_comp nf si sj sk sl) ->
    (ci <> 1 -> len0 <= asize (buf m 0%nat)) /\ (cj <> 1 -> len0 * ci <= asize (buf m 1%nat)) /\
    (ck <> 1 -> len0 * ci * cj <= asize (buf m 2%nat)) /\ (cl <> 1 -> len0 * ci * cj * ck <= asize (buf m 3%nat)) /\
    (n_comp <> 1 -> len0 * ci * cj * ck * cl <= asize (buf m 4%nat)).
  Proof.
    intros H. unfold fits, scratch4, needs in H.
    repeat split; intros E; apply H; apply Z.eqb_neq in E; rewrite E; cbn [negb]; rewrite !in_app_iff; cbn; auto 10.
  Qed.
  Lemma rows3_pos : 0 <= rows3 nf si sj sk.
  Proof. unfold rows3. assert (0 <= ci * cj) by nia. assert (0 <= ci * cj * ck) by nia. nia. Qed.
  Lemma rows2_pos : 0 <= rows2 nf si sj.
  Proof. unfold rows2. assert (0 <= ci * cj) by nia. nia. Qed.
  Lemma rows3_len : len0 * ci * cj * ck = rows3 nf si sj sk * n_comp.
  Proof. unfold rows3. ring. Qed.
  Lemma rows2_len : len0 * ci * cj = rows2 nf si sj * n_comp.
  Proof. unfold rows2. ring. Qed.

  (** *** 3c2e *)
  Section C3c2e.
  Variables (q : triples F) (m : mem F) (T : Z -> Z -> F).
  Hypothesis Hcaller : caller_holds m (rows3 nf si sj sk) n_comp T.
  Definition ok_3c2e := adds add m (rows3 nf si sj sk) n_comp (t_empty q)
      (some3 (s_np si) (s_np sj) (s_np sk) (kept_3c2e q)) T
      (batch3 zero add mul (s_np si) (s_np sj) (s_np sk) (kept_3c2e q) cfi cfj cfk (prim_3c2e mul q) common nf n_comp ci cj).
  Let skip := fun ip jp (kp : Z) => t_skip q ip jp.
  Let ev := fun ip jp (kp : Z) => t_e q ip jp.
  Let bf := bfull3 zero add mul n_comp nf si sj sk cfi cfj cfk common skip (t_g0 q) ev (t_base q).
  Let an := any3 si sj sk skip (t_g0 q).

  Lemma wrap_3c2e ig own lvl op : (own < 5)%nat -> (lvl <= 5)%nat ->
    Acc zero add ig (fun t => asize (buf m t)) lvl (alias n_comp 5 own) (alias n_comp 5 own) (len0 * ci * cj * ck) op an bf ->
    (n_comp <> 1 -> len0 * ci * cj * ck <= asize (buf m own)) ->
    forall nc, nc = ci * cj * ck ->
    ok_3c2e (if t_empty q then Some (m, false) else
        m <- op (reset_flags m) ;;
        m <- (if (1 <? n_comp) && negb (flg m (alias n_comp 5 own)) then TRANSPOSE add (alias n_comp 5 own) (nf * nc) n_comp m else Some m) ;;
        Some (m, negb (flg m 5%nat))).
  Proof.
    intros Ho Hlv Hacc Hsz nc ->. rewrite rows3_len in *.
    apply (wrap_adds zero one add mul sub opp Rth isz isz_zero (t_empty q) ig own lvl n_comp (rows3 nf si sj sk) (nf * (ci * cj * ck)) op an bf m T); auto.
    - apply rows3_pos.
    - intros E. split.
      + intros (ip & jp & kp & _ & _ & _ & K). unfold kept_3c2e in K. rewrite E in K. discriminate.
      + intros r c _ _. unfold batch3. rewrite (contract3_none zero one add mul sub opp Rth isz isz_zero); [ring|].
        intros. unfold kept_3c2e. rewrite E. reflexivity.
    - intros E.
      assert (Ek : forall ip jp kp, kp3 skip (t_g0 q) ip jp kp = kept_3c2e q ip jp kp).
      { intros. unfold kp3, kept_3c2e, skip. rewrite E. reflexivity. }
      split.
      + unfold an. rewrite any3_some. apply some3_ext. exact Ek.
      + intros r c Hr Hc. unfold bf.
        etransitivity; [eapply bfull3_batch; eassumption|].
        unfold batch3. f_equal. apply contract3_ext. exact Ek.
  Qed.

  Lemma loop_3c2e : fits m (scratch3 n_comp nf si sj sk) ->
    ok_3c2e (CINT3c2e_loop add mul n_comp nf si sj sk common q m).
  Proof.
    intros Hf. apply fits3 in Hf. destruct Hf as (Z0 & Z1 & Z2 & Z3).
    unfold CINT3c2e_loop. destruct l3 as (-> & -> & _).
    apply (wrap_3c2e (negb (ci =? 1)) 3 3 (loop3 add mul n_comp nf si sj sk common skip (t_g0 q)
       (fun ip jp kp m dst e f => f_gout add m dst e len0 (fun n => mul f (t_base q ip jp kp n)))
       (fun ip jp kp f c => mul (mul f c) (t_e q ip jp)) (fun ip jp kp f => mul f (t_e q ip jp)))); auto; try lia.
    apply (loop3_acc zero one add mul sub opp Rth isz isz_zero); auto.
    intros. apply (f_gout_ok zero one add mul isz isz_zero).
  Qed.
  Lemma loop_3c2e_111 : ci = 1 -> cj = 1 -> ck = 1 -> fits m (scratch3_special n_comp nf si sj sk 0) ->
    ok_3c2e (CINT3c2e_111_loop add mul n_comp nf si sj sk common q m).
  Proof.
    intros E1 E2 E3 Hf. apply fits3s in Hf. destruct Hf as (Z0 & Z1).
    apply (wrap_3c2e false 0 0 (op111 add mul n_comp nf si sj sk common skip (t_g0 q) ev (t_base q) (alias n_comp 5 0))); auto; try lia.
    apply (op111_acc zero one add mul sub opp Rth isz isz_zero); auto.
  Qed.
  Lemma loop_3c2e_n11 : ci <> 1 -> cj = 1 -> ck = 1 -> fits m (scratch3_special n_comp nf si sj sk 1) ->
    ok_3c2e (CINT3c2e_n11_loop add mul n_comp nf si sj sk common q m).
  Proof.
    intros E1 E2 E3 Hf. apply fits3s in Hf. destruct Hf as (Z0 & Z1).
    apply (wrap_3c2e true 1 1 (opn11 add mul n_comp nf si sj sk common skip (t_g0 q) ev (t_base q) (alias n_comp 5 1))); auto; try lia.
    apply (opn11_acc zero one add mul sub opp Rth isz isz_zero); auto; try lia.
    unfold alias. destruct (n_comp =? 1); lia.
  Qed.
  Lemma loop_3c2e_1n1 : ci = 1 -> cj <> 1 -> ck = 1 -> fits m (scratch3_special n_comp nf si sj sk 2) ->
    ok_3c2e (CINT3c2e_1n1_loop add mul n_comp nf si sj sk common q m).
  Proof.
    intros E1 E2 E3 Hf. apply fits3s in Hf. destruct Hf as (Z0 & Z1).
    apply (wrap_3c2e false 2 2 (op1n1 add mul n_comp nf si sj sk common skip (t_g0 q) ev (t_base q) (alias n_comp 5 2))); auto; try lia.
    apply (op1n1_acc zero one add mul sub opp Rth isz isz_zero); auto; try lia.
    unfold alias. destruct (n_comp =? 1); lia.
  Qed.
  Lemma dispatch_3c2e : fits m (scratch3_any n_comp nf si sj sk) ->
    ok_3c2e (CINT3c2e_opt_dispatch add mul n_comp nf si sj sk common q m).
  Proof.
    intros Hf. unfold scratch3_any in Hf.
    unfold CINT3c2e_opt_dispatch.
    destruct (ci =? 1) eqn:E1, (cj =? 1) eqn:E2, (ck =? 1) eqn:E3;
      rewrite ?Z.eqb_eq, ?Z.eqb_neq in *; unfold b2z, CINTf_3c2e_loop; cbn;
      first [apply loop_3c2e_111 | apply loop_3c2e_n11 | apply loop_3c2e_1n1 | apply loop_3c2e]; auto.
  Qed.
  End C3c2e.

  Lemma select_3c2e :
    CINT3c2e_opt_dispatch add mul n_comp nf si sj sk =
      (match s_ctr si =? 1, s_ctr sj =? 1, s_ctr sk =? 1 with
       | true, true, true => CINT3c2e_111_loop add mul
       | false, true, true => CINT3c2e_n11_loop add mul
       | true, false, true => CINT3c2e_1n1_loop add mul
       | _, _, _ => CINT3c2e_loop add mul
       end) n_comp nf si sj sk.
  Proof.
    unfold CINT3c2e_opt_dispatch. destruct (s_ctr si =? 1), (s_ctr sj =? 1), (s_ctr sk =? 1); reflexivity.
  Qed.

  (** *** 3c1e *)
  Section C3c1e.
  Variables (q : triples1 F) (m : mem F) (T : Z -> Z -> F).
  Hypothesis Hcaller : caller_holds m (rows3 nf si sj sk) n_comp T.
  Lemma wrap_3c1e gop (v : Z -> Z -> Z -> Z -> F) :
    (forall ip jp kp, gout_ok add mul (fun m dst e f => gop q len0 ip jp kp m dst e f) len0 (v ip jp kp)) ->
    fits m (scratch3 n_comp nf si sj sk) ->
    adds add m (rows3 nf si sj sk) n_comp false
      (some3 (s_np si) (s_np sj) (s_np sk) (kept_3c1e q)) T
      (batch3 zero add mul (s_np si) (s_np sj) (s_np sk) (kept_3c1e q) cfi cfj cfk
         (fun ip jp kp x => mul (u_e q ip jp kp) (v ip jp kp x)) common nf n_comp ci cj)
      (CINT3c1e_loop_with add mul gop n_comp nf si sj sk common q m).
  Proof.
    intros Hg Hf. apply fits3 in Hf. destruct Hf as (Z0 & Z1 & Z2 & Z3).
    unfold CINT3c1e_loop_with. destruct l3 as (-> & -> & _). rewrite rows3_len in Z3.
    set (bf := bfull3 zero add mul n_comp nf si sj sk cfi cfj cfk common (u_skip q) (fun _ _ _ => true) (u_e q) v).
    set (an := any3 si sj sk (u_skip q) (fun _ _ _ => true)).
    assert (Ek : forall ip jp kp, kp3 (u_skip q) (fun _ _ _ => true) ip jp kp = kept_3c1e q ip jp kp).
    { intros. unfold kp3, kept_3c1e. rewrite andb_true_r. reflexivity. }
    apply (wrap_adds zero one add mul sub opp Rth isz isz_zero false (negb (ci =? 1)) 3 3 n_comp (rows3 nf si sj sk) (nf * (ci * cj * ck))
       (loop3 add mul n_comp nf si sj sk common (u_skip q) (fun _ _ _ => true)
         (fun ip jp kp m dst e f => gop q len0 ip jp kp m dst e f)
         (fun ip jp kp f c => mul (mul f c) (u_e q ip jp kp)) (fun ip jp kp f => mul f (u_e q ip jp kp))) an bf m T); auto; try lia.
    - apply rows3_pos.
    - intros _. rewrite <- rows3_len. apply (loop3_acc zero one add mul sub opp Rth isz isz_zero); auto.
    - intros _. split.
      + unfold an. rewrite any3_some. apply some3_ext. exact Ek.
      + intros r c Hr Hc. unfold bf.
        etransitivity; [eapply bfull3_batch; eassumption|].
        unfold batch3. f_equal. apply contract3_ext. exact Ek.
  Qed.
  Lemma loop_3c1e : fits m (scratch3 n_comp nf si sj sk) ->
    adds add m (rows3 nf si sj sk) n_comp false
      (some3 (s_np si) (s_np sj) (s_np sk) (kept_3c1e q)) T
      (batch3 zero add mul (s_np si) (s_np sj) (s_np sk) (kept_3c1e q) cfi cfj cfk (prim_3c1e mul q) common nf n_comp ci cj)
      (CINT3c1e_loop_nopt add mul n_comp nf si sj sk common q m).
  Proof.
    apply (wrap_3c1e (gout_ovlp add mul) (fun ip jp kp n => mul (u_d q ip jp kp) (u_base q ip jp kp 0 n))).
    intros. apply (gout_ovlp_ok zero one add mul sub opp Rth).
  Qed.
  Lemma loop_3c1e_nuc : 1 <= u_roots q -> fits m (scratch3 n_comp nf si sj sk) ->
    adds add m (rows3 nf si sj sk) n_comp false
      (some3 (s_np si) (s_np sj) (s_np sk) (kept_3c1e q)) T
      (batch3 zero add mul (s_np si) (s_np sj) (s_np sk) (kept_3c1e q) cfi cfj cfk (prim_3c1e_nuc zero add mul q) common nf n_comp ci cj)
      (CINT3c1e_nuc_loop_nopt add mul n_comp nf si sj sk common q m).
  Proof.
    intros HN.
    apply (wrap_3c1e (gout_nuc add mul) (fun ip jp kp n => mul (u_d q ip jp kp)
      (lsum zero add (u_roots q) (fun i => mul (u_w q ip jp kp i) (u_base q ip jp kp i n))))).
    intros. apply (gout_nuc_ok zero one add mul sub opp Rth). exact HN.
  Qed.
  End C3c1e.

  (** *** 2c2e: the second shell is k; here it is called j *)
  Section C2c2e.
  Variables (q : pairs2 F) (m : mem F) (T : Z -> Z -> F).
  Hypothesis Hcaller : caller_holds m (rows2 nf si sj) n_comp T.
  Lemma loop_2c2e : fits m (scratch2 n_comp nf si sj) ->
    adds add m (rows2 nf si sj) n_comp false
      (some2 (s_np si) (s_np sj) (p2_g0 q)) T
      (batch2 zero add mul (s_np si) (s_np sj) (p2_g0 q) cfi cfj (p2_base q) common nf n_comp ci)
      (CINT2c2e_loop add mul n_comp nf si sj common q m).
  Proof.
    intros Hf. apply fits2 in Hf. destruct Hf as (Z0 & Z1 & Z2).
    unfold CINT2c2e_loop. destruct l3 as (-> & _ & _). rewrite rows2_len in Z2.
    set (bf := bfull2 zero add mul n_comp nf si sj cfi cfj common (fun _ _ => false) (p2_g0 q) (fun _ _ => one) (p2_base q)).
    set (an := any2 si sj (fun _ _ => false) (p2_g0 q)).
    apply (wrap_adds zero one add mul sub opp Rth isz isz_zero false (negb (ci =? 1)) 2 2 n_comp (rows2 nf si sj) (nf * (ci * cj))
       (loop2 add mul n_comp nf si sj common (fun _ _ => false) (p2_g0 q)
         (fun ip jp m dst e f => f_gout add m dst e len0 (fun n => mul f (p2_base q ip jp n)))
         (fun ip jp f c => mul f c) (fun ip jp f => f)) an bf m T); auto; try lia.
    - apply rows2_pos.
    - intros _. rewrite <- rows2_len. apply (loop2_acc zero one add mul sub opp Rth isz isz_zero); auto.
      + intros. apply (f_gout_ok zero one add mul isz isz_zero).
      + intros. ring.
      + intros. ring.
    - intros _. split.
      + unfold an. rewrite any2_some. reflexivity.
      + intros r c Hr Hc. unfold bf.
        etransitivity; [eapply bfull2_batch; eassumption|].
        unfold batch2, contract2. f_equal. apply lsum_ext. intros jp _. apply lsum_ext. intros ip _.
        unfold kp2. cbn [negb andb]. destruct (p2_g0 q ip jp); ring.
  Qed.
  End C2c2e.

  (** *** 1e *)
  Section C1e.
  Variables (ty : Z) (q : pairs1 F) (m : mem F).
  Hypothesis Hty : 0 <= ty <= 2.
  Hypothesis Hnuc : ty = 2 -> 1 <= w_natm q.
  Hypothesis H5 : rows2 nf si sj * n_comp <= asize (buf m 5%nat).
  Lemma loop_1e : fits m (scratch2 n_comp nf si sj) ->
    makes m (rows2 nf si sj) n_comp
      (some2 (s_np si) (s_np sj) (kept_1e q))
      (batch2 zero add mul (s_np si) (s_np sj) (kept_1e q) cfi cfj (prim_1e zero add mul ty q) common nf n_comp ci)
      (CINT1e_loop add mul ty n_comp nf si sj common q m).
  Proof.
    intros Hf. apply fits2 in Hf. destruct Hf as (Z0 & Z1 & Z2).
    unfold CINT1e_loop. destruct l3 as (-> & _ & _). rewrite rows2_len in Z2.
    set (v := fun ip jp n => match ty with
       | 0 => w_ovlp q ip jp n
       | 1 => w_nuc q ip jp (-1) n
       | _ => lsum zero add (w_natm q) (fun ia => w_nuc q ip jp ia n)
       end).
    set (bf := bfull2 zero add mul n_comp nf si sj cfi cfj common (w_skip q) (fun _ _ => true) (w_e q) v).
    set (an := any2 si sj (w_skip q) (fun _ _ => true)).
    apply (wrap_makes zero one add mul sub opp Rth isz isz_zero (w_empty q) (negb (ci =? 1)) 2 2 n_comp (rows2 nf si sj) (nf * (ci * cj))
       (loop2 add mul n_comp nf si sj common (w_skip q) (fun _ _ => true)
         (fun ip jp m dst e f => make_g1e_gout add mul q ty len0 ip jp m dst e f)
         (fun ip jp f c => mul (mul f c) (w_e q ip jp)) (fun ip jp f => mul f (w_e q ip jp))) an bf m); auto; try lia.
    - apply rows2_pos.
    - intros _. rewrite <- rows2_len. apply (loop2_acc zero one add mul sub opp Rth isz isz_zero); auto.
      intros. apply (make_g1e_gout_ok zero one add mul sub opp Rth); auto.
    - intros E (ip & jp & _ & _ & K). unfold kept_1e in K. rewrite E in K. discriminate.
    - intros E.
      assert (Ek : forall ip jp, kp2 (w_skip q) (fun _ _ => true) ip jp = kept_1e q ip jp).
      { intros. unfold kp2, kept_1e. rewrite E, andb_true_r. reflexivity. }
      split.
      + unfold an. rewrite any2_some. apply some2_ext. exact Ek.
      + intros r c Hr Hc. unfold bf.
        etransitivity; [eapply bfull2_batch; eassumption|].
        unfold batch2. f_equal. apply contract2_ext. exact Ek.
  Qed.
  End C1e.

  (** *** 4c1e *)
  Section C4c1e.
  Variables (q : quartets1 F) (m : mem F).
  Hypothesis H5 : rows4 nf si sj sk sl * n_comp <= asize (buf m 5%nat).
  Lemma loop_4c1e : fits m (scratch4 n_comp nf si sj sk sl) ->
    makes m (rows4 nf si sj sk sl) n_comp
      (some4 (s_np si) (s_np sj) (s_np sk) (s_np sl) (kept_4c1e q))
      (batch4 zero add mul (s_np si) (s_np sj) (s_np sk) (s_np sl) (kept_4c1e q) cfi cfj cfk cfl (prim_4c1e mul q) common nf n_comp ci cj ck)
      (CINT4c1e_loop_nopt add mul n_comp nf si sj sk sl common q m).
  Proof.
    intros Hf. apply fits4 in Hf. destruct Hf as (Z0 & Z1 & Z2 & Z3 & Z4).
    unfold CINT4c1e_loop_nopt. destruct l3 as (-> & -> & ->).
    assert (E4 : len0 * ci * cj * ck * cl = rows4 nf si sj sk sl * n_comp) by (unfold rows4; ring).
    rewrite E4 in Z4.
    set (q' := mkq false (v_skip_kl q) (v_skip q) (fun _ _ _ _ => true) (fun _ _ => one) (fun _ _ => one) (v_base q)).
    set (bf := bfull zero add mul n_comp nf si sj sk sl cfi cfj cfk cfl q' common (v_e q)).
    set (an := any4 si sj sk sl q').
    assert (Ek : forall ip jp kp lp, kept q' ip jp kp lp = kept_4c1e q ip jp kp lp).
    { intros. unfold kept, keep4, kept_4c1e, q'. cbn [pair_empty skip_kl skip_ij g0 negb]. rewrite andb_true_r. reflexivity. }
    apply (wrap_makes zero one add mul sub opp Rth isz isz_zero false (negb (ci =? 1)) 4 4 n_comp (rows4 nf si sj sk sl) (nf * (ci * cj * ck * cl))
       (loop4 add mul n_comp nf si sj sk sl q' common
         (fun ip jp kp lp f c => mul (mul f c) (v_e q ip jp kp lp)) (fun ip jp kp lp f => mul f (v_e q ip jp kp lp))) an bf m); auto; try lia.
    - intros _. rewrite <- E4. apply (loop4_acc zero one add mul sub opp Rth isz isz_zero); auto.
    - intros _. split.
      + unfold an. rewrite any4_some. apply some4_ext. intros. rewrite <- Ek. reflexivity.
      + intros r c Hr Hc. unfold bf.
        etransitivity; [eapply bfull_B4; eauto|].
        unfold B4, batch4. f_equal. apply contract4_ext. exact Ek.
  Qed.
  End C4c1e.
End Final3.

(** *** Scratch contents are irrelevant *)
Section Scratch3.
  Context {F : Type} (zero one : F) (add mul sub : F -> F -> F) (opp : F -> F).
  Hypothesis Rth : ring_theory zero one add mul sub opp (@eq F).
  Variable isz : F -> bool.
  Hypothesis isz_zero : forall c, isz c = true -> c = zero.
  Variables (n_comp nf : Z) (si sj sk sl : shl F) (cfi cfj cfk cfl : Z -> Z -> F).
  Hypothesis Hi : shell_of isz si cfi.
  Hypothesis Hj : shell_of isz sj cfj.
  Hypothesis Hk : shell_of isz sk cfk.
  Hypothesis Hl : shell_of isz sl cfl.
  Hypothesis Hnf : 0 <= nf.
  Hypothesis Hnc : 1 <= n_comp.
  Variable common : F.
  Variables (m : mem F) (T : Z -> Z -> F) (m2 : mem F).
  Lemma caller_same rows : buf m2 5%nat = buf m 5%nat -> flg m2 5%nat = flg m 5%nat -> caller_holds m rows n_comp T -> caller_holds m2 rows n_comp T.
  Proof. unfold caller_holds. intros -> ->. auto. Qed.

  Section Adds.
  Hypothesis Hbuf : buf m2 5%nat = buf m 5%nat.
  Hypothesis Hflg : flg m2 5%nat = flg m 5%nat.
  Ltac two L := intros; eapply adds_same; [exact Hbuf|exact Hflg| |]; eapply L; eauto using caller_same.
  Lemma scratch_3c2e (q : triples F) : caller_holds m (rows3 nf si sj sk) n_comp T ->
    fits m (scratch3 n_comp nf si sj sk) -> fits m2 (scratch3 n_comp nf si sj sk) ->
    same_added (rows3 nf si sj sk) n_comp (CINT3c2e_loop add mul n_comp nf si sj sk common q m) (CINT3c2e_loop add mul n_comp nf si sj sk common q m2).
  Proof. two (loop_3c2e zero one add mul sub opp). Qed.
  Lemma scratch_3c2e_dispatch (q : triples F) : caller_holds m (rows3 nf si sj sk) n_comp T ->
    fits m (scratch3_any n_comp nf si sj sk) -> fits m2 (scratch3_any n_comp nf si sj sk) ->
    same_added (rows3 nf si sj sk) n_comp (CINT3c2e_opt_dispatch add mul n_comp nf si sj sk common q m) (CINT3c2e_opt_dispatch add mul n_comp nf si sj sk common q m2).
  Proof. two (dispatch_3c2e zero one add mul sub opp). Qed.
  Lemma scratch_3c1e (q : triples1 F) : caller_holds m (rows3 nf si sj sk) n_comp T ->
    fits m (scratch3 n_comp nf si sj sk) -> fits m2 (scratch3 n_comp nf si sj sk) ->
    same_added (rows3 nf si sj sk) n_comp (CINT3c1e_loop_nopt add mul n_comp nf si sj sk common q m) (CINT3c1e_loop_nopt add mul n_comp nf si sj sk common q m2).
  Proof. two (loop_3c1e zero one add mul sub opp). Qed.
  Lemma scratch_3c1e_nuc (q : triples1 F) : caller_holds m (rows3 nf si sj sk) n_comp T -> 1 <= u_roots q ->
    fits m (scratch3 n_comp nf si sj sk) -> fits m2 (scratch3 n_comp nf si sj sk) ->
    same_added (rows3 nf si sj sk) n_comp (CINT3c1e_nuc_loop_nopt add mul n_comp nf si sj sk common q m) (CINT3c1e_nuc_loop_nopt add mul n_comp nf si sj sk common q m2).
  Proof. two (loop_3c1e_nuc zero one add mul sub opp). Qed.
  Lemma scratch_2c2e (q : pairs2 F) : caller_holds m (rows2 nf si sj) n_comp T ->
    fits m (scratch2 n_comp nf si sj) -> fits m2 (scratch2 n_comp nf si sj) ->
    same_added (rows2 nf si sj) n_comp (CINT2c2e_loop add mul n_comp nf si sj common q m) (CINT2c2e_loop add mul n_comp nf si sj common q m2).
  Proof. two (loop_2c2e zero one add mul sub opp). Qed.
  End Adds.

  (** here the caller's buffer is scratch as well *)
  Lemma scratch_1e (ty : Z) (q : pairs1 F) : 0 <= ty <= 2 -> (ty = 2 -> 1 <= w_natm q) ->
    rows2 nf si sj * n_comp <= asize (buf m 5%nat) -> rows2 nf si sj * n_comp <= asize (buf m2 5%nat) ->
    fits m (scratch2 n_comp nf si sj) -> fits m2 (scratch2 n_comp nf si sj) ->
    same_made (rows2 nf si sj) n_comp (CINT1e_loop add mul ty n_comp nf si sj common q m) (CINT1e_loop add mul ty n_comp nf si sj common q m2).
  Proof. intros. eapply makes_same; eapply (loop_1e zero one add mul sub opp); eauto. Qed.
  Lemma scratch_4c1e (q : quartets1 F) : rows4 nf si sj sk sl * n_comp <= asize (buf m 5%nat) ->
    rows4 nf si sj sk sl * n_comp <= asize (buf m2 5%nat) ->
    fits m (scratch4 n_comp nf si sj sk sl) -> fits m2 (scratch4 n_comp nf si sj sk sl) ->
    same_made (rows4 nf si sj sk sl) n_comp (CINT4c1e_loop_nopt add mul n_comp nf si sj sk sl common q m) (CINT4c1e_loop_nopt add mul n_comp nf si sj sk sl common q m2).
  Proof. intros. eapply makes_same; eapply (loop_4c1e zero one add mul sub opp); eauto. Qed.
End Scratch3.

Lemma no_atoms : exists (q : pairs1 Z) (s : shl Z) (m m2 : mem Z),
  w_natm q = 0 /\ shell_of (fun z => z =? 0) s (fun _ _ => 1) /\
  fits m (scratch2 1 1 s s) /\ fits m2 (scratch2 1 1 s s) /\ asize (buf m 5%nat) = 1 /\ asize (buf m2 5%nat) = 1 /\
  (exists m', CINT1e_loop Z.add Z.mul 2 1 1 s s 1 q m = Some (m', true) /\ rd (buf m' 5%nat) 0 = Some 7) /\
  (exists m', CINT1e_loop Z.add Z.mul 2 1 1 s s 1 q m2 = Some (m', true) /\ rd (buf m' 5%nat) 0 = Some 8).
Proof.
  destruct (shell_exists (fun z => z =? 0) (of_fun 1 (fun _ => 1)) 1 1 (fun _ _ => 1)) as (s & E1 & E2 & Hs).
  { repeat split; try lia. intros ic p ? ?. rewrite (rd_of_fun 1 (fun _ => 1)) by lia. reflexivity. }
  assert (Hr : rd (s_c s) 0 = Some 1).
  { destruct Hs as (c & (_ & _ & Hc) & Hm). rewrite E1, E2 in *.
    unfold mk_shell in Hm. destruct (CINTOpt_non0coeff_byshell _ _ _ _ _ _) as [[? ?]|]; cbn in Hm; [|discriminate].
    injection Hm as <-. cbn. apply (Hc 0 0); lia. }
  exists (mkp1 false (fun _ _ => false) (fun _ _ => 1) 0 (fun _ _ _ => 0) (fun _ _ _ _ => 0)), s,
    (mkmem (fun _ => of_fun 1 (fun _ => 7)) (fun _ => true)), (mkmem (fun _ => of_fun 1 (fun _ => 8)) (fun _ => true)).
  split; [reflexivity|]. split; [exact Hs|].
  assert (Hsc : scratch2 1 1 s s = []) by (unfold scratch2; rewrite E2; reflexivity).
  rewrite Hsc. split; [intros ? ? []|]. split; [intros ? ? []|]. split; [reflexivity|]. split; [reflexivity|].
  split.
  - unfold CINT1e_loop, enter, PRIM2CTR, alias. rewrite E1, E2. cbn -[rd].
    change (Pos.to_nat 1) with 1%nat. cbn -[rd]. rewrite !Hr. cbn -[rd]. rewrite ?Hr. cbn -[rd].
    eexists. split; reflexivity.
  - unfold CINT1e_loop, enter, PRIM2CTR, alias. rewrite E1, E2. cbn -[rd].
    change (Pos.to_nat 1) with 1%nat. cbn -[rd]. rewrite !Hr. cbn -[rd]. rewrite ?Hr. cbn -[rd].
    eexists. split; reflexivity.
Qed.
