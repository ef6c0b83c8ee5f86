(** Loop2eProof.v — the two-electron primitive loops contract correctly. *)
From Verif Require Import Base BasSpec BasProof FblasModel CtrModel CtrSpec CtrProof LoopSpec LoopProof Loop2eModel.
From Coq Require Import ZifyBool ZifyNat Ring Ring_theory.

(** ** Lemmas for loops written without the PRIM2CTR bookkeeping *)
Section Plain.
  Context {F : Type} (zero one : F) (add mul sub : F -> F -> F) (opp : F -> F).
  Hypothesis Rth : ring_theory zero one add mul sub opp (@eq F).
  Variable isz : F -> bool.
  Hypothesis isz_zero : forall c, isz c = true -> c = zero.
  Add Ring Fr1 : Rth.
  Notation sum := (lsum zero add).
  Notation Acc := (Acc zero add).

  Lemma Acc_inv ig sz lvl ob ofl len op op' any b :
    Acc ig sz lvl ob ofl len op any b -> (forall m, MInv ig sz m -> op m = op' m) ->
    Acc ig sz lvl ob ofl len op' any b.
  Proof. intros H Ho m any0 b0 HM HS. rewrite <- Ho by exact HM. exact (H m any0 b0 HM HS). Qed.

  (** for (xp...) { skip; fac1x = fac * cx[xp]; inner } *)
  Lemma plain_for ig sz lvl ob ofl len s cf (skip : Z -> bool) inner any J fac :
    shell_ok isz s cf ->
    (forall p f, 0 <= p < s_np s -> skip p = false ->
       Acc ig sz lvl ob ofl len (inner p f) (any p) (fun n => mul f (J p n))) ->
    Acc ig sz lvl ob ofl len
      (for_ 0 (s_np s) (fun p m => if skip p then Some m else
         c <- rd (s_c s) p ;; inner p (mul fac c) m))
      (anyN (s_np s) (fun p => negb (skip p) && any p))
      (fun n => mul fac (sum (s_np s) (fun p => if skip p then zero else mul (cf 0 p) (J p n)))).
  Proof.
    intros (Hnp & Hct & Hcf & Hsp) Hin.
    apply (Acc_for_scaled zero one add mul sub opp Rth isz isz_zero); [exact Hnp|].
    intros p Hp. destruct (skip p) eqn:Es; cbn [negb andb].
    - eapply Acc_ext; [apply (Acc_skip zero one add mul sub opp Rth)|reflexivity|].
      intros n _. cbv beta. ring.
    - assert (Er : rd (s_c s) p = Some (cf 0 p)).
      { rewrite <- (Hcf 0 p) by lia. f_equal. lia. }
      eapply Acc_ext; [apply (Hin p (mul fac (cf 0 p)) Hp Es)| |].
      + intros m. rewrite Er. reflexivity.
      + intros n _. cbv beta. ring.
  Qed.

  (** innermost loop writing straight to the slot *)
  Lemma plain_inner ig sz lvl ob ofl len s cf (skip keep : Z -> bool) (v : Z -> Z -> F) fac (e : Z -> F)
      (f1 : Z -> F -> F) :
    shell_ok isz s cf -> 0 <= len -> (ofl = 0%nat -> ig = false) ->
    (forall p c, f1 p c = mul (mul fac c) (e p)) ->
    Acc ig sz lvl ob ofl len
      (for_ 0 (s_np s) (fun p m => if skip p then Some m else
         c <- rd (s_c s) p ;;
         if keep p then
           m <- f_gout add m ob (flg m ofl) len (fun n => mul (f1 p c) (v p n)) ;;
           Some (set_flg m ofl false)
         else Some m))
      (anyN (s_np s) (fun p => negb (skip p) && keep p))
      (fun n => mul fac (sum (s_np s) (fun p =>
         if negb (skip p) && keep p then mul (cf 0 p) (mul (e p) (v p n)) else zero))).
  Proof.
    intros (Hnp & Hct & Hcf & Hsp) HL Hig Hf1.
    apply (Acc_for_scaled zero one add mul sub opp Rth isz isz_zero); [exact Hnp|].
    intros p Hp.
    assert (Er : rd (s_c s) p = Some (cf 0 p)).
    { rewrite <- (Hcf 0 p) by lia. f_equal. lia. }
    rewrite Er. cbn [bind].
    destruct (skip p) eqn:Es; cbn [negb andb].
    - eapply Acc_ext; [apply (Acc_skip zero one add mul sub opp Rth)|reflexivity|].
      intros n _. cbv beta. ring.
    - destruct (keep p) eqn:Ek.
      + eapply Acc_ext; [apply (Acc_gout zero one add mul sub opp Rth isz isz_zero ig sz lvl ob ofl len
                                  (fun n => mul (f1 p (cf 0 p)) (v p n)) HL Hig)|reflexivity|].
        intros n _. cbv beta. rewrite Hf1. ring.
      + eapply Acc_ext; [apply (Acc_skip zero one add mul sub opp Rth)|reflexivity|].
        intros n _. cbv beta. ring.
  Qed.

  (** level with several contractions accumulating a gout buffer guarded by a foreign flag *)
  Lemma ctr_for ig sz lvl lvl0 s cf gx sb sf L (skip : Z -> bool) inner any J fac :
    shell_ok isz s cf -> 1 < s_ctr s -> 0 <= L <= sz sb ->
    gx <> 0%nat -> (sf = 0%nat -> ig = false) ->
    (lvl0 <= gx)%nat -> gx <> sb -> gx <> sf -> (sb < lvl)%nat -> (sf < lvl)%nat -> (lvl0 <= lvl)%nat ->
    (forall p, 0 <= p < s_np s -> skip p = false ->
       Acc ig sz lvl0 sb sf L (inner p) (any p) (fun n => mul fac (J p n))) ->
    Acc ig sz lvl gx gx (L * s_ctr s)
      (for_ 0 (s_np s) (fun p m => if skip p then Some m else
         m <- inner p (set_flg m sf true) ;;
         if negb (flg m sf) then PRIM2CTR add mul s p gx gx sb L m else Some m))
      (anyN (s_np s) (fun p => negb (skip p) && any p))
      (fun n => mul fac (sum (s_np s) (fun p => if skip p then zero else mul (cf (n / L) p) (J p (n mod L))))).
  Proof.
    intros Hs Hc HL Hgx Hsf H1 H2 H3 H4 H5 H6 Hin.
    apply (Acc_for_scaled zero one add mul sub opp Rth isz isz_zero); [apply Hs|].
    intros p Hp. destruct (skip p) eqn:Es; cbn [negb andb].
    - eapply Acc_ext; [apply (Acc_skip zero one add mul sub opp Rth)|reflexivity|].
      intros n _. cbv beta. ring.
    - apply (ctr_step zero one add mul sub opp Rth isz isz_zero ig sz lvl lvl0 s cf p gx sb sf L); auto.
  Qed.

  Lemma shell_ctr1 s cf : shell_ok isz s cf -> 1 <= s_ctr s.
  Proof. intros H. apply H. Qed.

  (** the sum over primitives with the coefficients pulled inside *)
  Lemma sum_in n c f : mul c (sum n f) = sum n (fun p => mul c (f p)).
  Proof. symmetry. apply (sum_scale zero one add mul sub opp Rth). Qed.
End Plain.

Section Loop2e.
  Context {F : Type} (zero one : F) (add mul sub : F -> F -> F) (opp : F -> F).
  Hypothesis Rth : ring_theory zero one add mul sub opp (@eq F).
  Variable isz : F -> bool.
  Hypothesis isz_zero : forall c, isz c = true -> c = zero.
  Add Ring Fr2 : Rth.
  Notation sum := (lsum zero add).
  Notation Acc := (Acc zero add).

  Variables (n_comp nf : Z) (si sj sk sl : shl F) (cfi cfj cfk cfl : Z -> Z -> F).
  Hypothesis Hi : shell_ok isz si cfi.
  Hypothesis Hj : shell_ok isz sj cfj.
  Hypothesis Hk : shell_ok isz sk cfk.
  Hypothesis Hl : shell_ok isz sl cfl.
  Hypothesis Hnf : 0 <= nf.
  Hypothesis Hnc : 1 <= n_comp.
  Variable q : quartets F.
  Variable common : F.

  Notation ci := (s_ctr si).
  Notation cj := (s_ctr sj).
  Notation ck := (s_ctr sk).
  Notation cl := (s_ctr sl).
  Let len0 := nf * n_comp.

  Variable ev : Z -> Z -> Z -> Z -> F.
  Definition keep4 ip jp kp lp := negb (skip_kl q kp lp) && (negb (skip_ij q ip jp kp lp) && g0 q ip jp kp lp).

  (** the four nested sums, as the loops form them *)
  Definition Ji (cfi : Z -> Z -> F) jp kp lp (ic x : Z) :=
    sum (s_np si) (fun ip => if negb (skip_ij q ip jp kp lp) && g0 q ip jp kp lp
      then mul (cfi ic ip) (mul (ev ip jp kp lp) (base q ip jp kp lp x)) else zero).
  Definition Jj kp lp (ic jc x : Z) := sum (s_np sj) (fun jp => mul (cfj jc jp) (Ji cfi jp kp lp ic x)).
  Definition Jk lp (ic jc kc x : Z) := sum (s_np sk) (fun kp => if skip_kl q kp lp then zero else
      mul (cfk kc kp) (Jj kp lp ic jc x)).
  Definition Jl (ic jc kc lc x : Z) := sum (s_np sl) (fun lp => mul (cfl lc lp) (Jk lp ic jc kc x)).

  Lemma Jl_contract ic jc kc lc x :
    Jl ic jc kc lc x = contract4 zero add mul (s_np si) (s_np sj) (s_np sk) (s_np sl) keep4 cfi cfj cfk cfl
      (fun ip jp kp lp x => mul (ev ip jp kp lp) (base q ip jp kp lp x)) ic jc kc lc x.
  Proof.
    unfold Jl, Jk, Jj, Ji, contract4, keep4.
    apply lsum_ext. intros lp _. rewrite (sum_in zero one add mul sub opp Rth).
    apply lsum_ext. intros kp _. destruct (skip_kl q kp lp); cbn [negb andb].
    - rewrite (sum_zero zero one add mul sub opp Rth isz isz_zero (s_np sj)); [ring|].
      intros jp _. apply (sum_zero zero one add mul sub opp Rth isz isz_zero). reflexivity.
    - rewrite !(sum_in zero one add mul sub opp Rth). apply lsum_ext. intros jp _.
      rewrite !(sum_in zero one add mul sub opp Rth). apply lsum_ext. intros ip _.
      destruct (negb (skip_ij q ip jp kp lp) && g0 q ip jp kp lp); ring.
  Qed.

  Definition any4 : bool :=
    anyN (s_np sl) (fun lp => anyN (s_np sk) (fun kp => negb (skip_kl q kp lp) &&
      anyN (s_np sj) (fun jp => anyN (s_np si) (fun ip => negb (skip_ij q ip jp kp lp) && g0 q ip jp kp lp)))).

  Lemma any4_some : any4 = true <-> some4 (s_np si) (s_np sj) (s_np sk) (s_np sl) keep4.
  Proof.
    unfold any4, some4, keep4. rewrite anyN_true. split.
    - intros [lp [Hlp H]]. apply anyN_true in H. destruct H as [kp [Hkp H]].
      apply andb_prop in H. destruct H as [Hs H].
      apply anyN_true in H. destruct H as [jp [Hjp H]]. apply anyN_true in H. destruct H as [ip [Hip H]].
      exists ip, jp, kp, lp. rewrite Hs, H. auto 10.
    - intros (ip & jp & kp & lp & Hip & Hjp & Hkp & Hlp & H).
      apply andb_prop in H. destruct H as [Hs H].
      exists lp. split; [exact Hlp|]. apply anyN_true. exists kp. split; [exact Hkp|].
      rewrite Hs. apply anyN_true. exists jp. split; [exact Hjp|]. apply anyN_true. exists ip. auto.
  Qed.

  (** The value at position [x] of the last level's buffer. *)
  Definition bfull (x : Z) : F :=
    mul common (Jl ((x / len0) mod ci) ((x / (len0 * ci)) mod cj) ((x / (len0 * ci * cj)) mod ck)
                   (x / (len0 * ci * cj * ck)) (x mod len0)).

  (** ** The general loops *)
  Section General.
  Variable f1 : Z -> Z -> Z -> Z -> F -> F -> F.
  Variable f2 : Z -> Z -> Z -> Z -> F -> F.
  Hypothesis Hf1 : forall ip jp kp lp fac c, f1 ip jp kp lp fac c = mul (mul fac c) (ev ip jp kp lp).
  Hypothesis Hf2 : forall ip jp kp lp fac, f2 ip jp kp lp fac = mul fac (ev ip jp kp lp).

  Let gl := alias n_comp 5 4.
  Let gk := alias cl gl 3.
  Let gj := alias ck gk 2.
  Let gi := alias cj gj 1.
  Let gg := alias ci gi 0.

  Definition body_i jp kp lp (fac1j : F) : mem F -> option (mem F) :=
    for_ 0 (s_np si) (fun ip m =>
      if skip_ij q ip jp kp lp then Some m else
      fac1i <- (if ci =? 1
                then c <- rd (s_c si) ip ;; Some (f1 ip jp kp lp fac1j c)
                else Some (f2 ip jp kp lp fac1j)) ;;
      if g0 q ip jp kp lp then
        m <- f_gout add m gg (flg m gg) len0 (fun n => mul fac1i (base q ip jp kp lp n)) ;;
        PRIM2CTR add mul si ip gi gi gg len0 m
      else Some m).
  Definition body_j kp lp (fac1k : F) : mem F -> option (mem F) :=
    for_ 0 (s_np sj) (fun jp m =>
      r <- enter mul sj jp fac1k gi m ;;
      let '(fac1j, m) := r in
      m <- body_i jp kp lp fac1j m ;;
      if negb (flg m gi) then PRIM2CTR add mul sj jp gj gj gi (len0 * ci) m else Some m).
  Definition body_k lp (fac1l : F) : mem F -> option (mem F) :=
    for_ 0 (s_np sk) (fun kp m =>
      if skip_kl q kp lp then Some m else
      r <- enter mul sk kp fac1l gj m ;;
      let '(fac1k, m) := r in
      m <- body_j kp lp fac1k m ;;
      if negb (flg m gj) then PRIM2CTR add mul sk kp gk gk gj (len0 * ci * cj) m else Some m).
  Definition loop4 : mem F -> option (mem F) :=
    for_ 0 (s_np sl) (fun lp m =>
      r <- enter mul sl lp common gk m ;;
      let '(fac1l, m) := r in
      m <- body_k lp fac1l m ;;
      if negb (flg m gk) then PRIM2CTR add mul sl lp gl gl gk (len0 * ci * cj * ck) m else Some m).

  Variable sz : nat -> Z.
  Hypothesis Hz0 : ci <> 1 -> len0 <= sz 0%nat.
  Hypothesis Hz1 : cj <> 1 -> len0 * ci <= sz 1%nat.
  Hypothesis Hz2 : ck <> 1 -> len0 * ci * cj <= sz 2%nat.
  Hypothesis Hz3 : cl <> 1 -> len0 * ci * cj * ck <= sz 3%nat.

  Let C1 := shell_ctr1 isz si cfi Hi.
  Let C2 := shell_ctr1 isz sj cfj Hj.
  Let C3 := shell_ctr1 isz sk cfk Hk.
  Let C4 := shell_ctr1 isz sl cfl Hl.

  Lemma alias_ge a (b c : nat) : (c < b)%nat -> (c <= alias a b c)%nat.
  Proof. unfold alias. destruct (a =? 1); lia. Qed.
  Lemma G_l : (4 <= gl)%nat. Proof. apply alias_ge. lia. Qed.
  Lemma G_k : (3 <= gk)%nat. Proof. pose proof G_l. apply alias_ge. lia. Qed.
  Lemma G_j : (2 <= gj)%nat. Proof. pose proof G_k. apply alias_ge. lia. Qed.
  Lemma G_i : (1 <= gi)%nat. Proof. pose proof G_j. apply alias_ge. lia. Qed.

  Lemma L_0 : 0 <= len0. Proof. unfold len0. nia. Qed.
  Lemma L_i : 0 <= len0 * ci. Proof. pose proof L_0. nia. Qed.
  Lemma L_j : 0 <= len0 * ci * cj. Proof. pose proof L_i. nia. Qed.
  Lemma L_k : 0 <= len0 * ci * cj * ck. Proof. pose proof L_j. nia. Qed.

  Lemma body_i_acc jp kp lp fac :
    Acc (negb (ci =? 1)) sz 1 gi gi (len0 * ci) (body_i jp kp lp fac)
      (anyN (s_np si) (fun ip => negb (skip_ij q ip jp kp lp) && g0 q ip jp kp lp))
      (fun n => mul fac (Ji cfi jp kp lp (n / len0) (n mod len0))).
  Proof.
    apply (inner_for zero one add mul sub opp Rth isz isz_zero sz si cfi gi gg len0
             (fun ip => skip_ij q ip jp kp lp) (fun ip => g0 q ip jp kp lp)
             (fun ip n => base q ip jp kp lp n) fac (fun ip => ev ip jp kp lp)
             (fun ip c => f1 ip jp kp lp fac c) (fun ip => f2 ip jp kp lp fac));
      [exact Hi|apply L_0|exact Hz0|reflexivity|pose proof G_i; lia|auto|auto].
  Qed.

  Lemma body_j_acc kp lp fac :
    Acc (negb (ci =? 1)) sz 2 gj gj (len0 * ci * cj) (body_j kp lp fac)
      (anyN (s_np sj) (fun jp => anyN (s_np si) (fun ip => negb (skip_ij q ip jp kp lp) && g0 q ip jp kp lp)))
      (fun n => mul fac (Jj kp lp ((n mod (len0 * ci)) / len0) (n / (len0 * ci)) ((n mod (len0 * ci)) mod len0))).
  Proof.
    apply (level_for zero one add mul sub opp Rth isz isz_zero (negb (ci =? 1)) sz 1 sj cfj gj gi (len0 * ci)
             (fun _ => false) (fun jp f => body_i jp kp lp f)
             (fun jp => anyN (s_np si) (fun ip => negb (skip_ij q ip jp kp lp) && g0 q ip jp kp lp))
             (fun jp n => Ji cfi jp kp lp (n / len0) (n mod len0)) fac);
      [exact Hj|apply L_i|exact Hz1|reflexivity|pose proof G_j; lia|lia|].
    intros jp f _ _. apply body_i_acc.
  Qed.

  Lemma body_k_acc lp fac :
    Acc (negb (ci =? 1)) sz 3 gk gk (len0 * ci * cj * ck) (body_k lp fac)
      (anyN (s_np sk) (fun kp => negb (skip_kl q kp lp) && anyN (s_np sj) (fun jp => anyN (s_np si) (fun ip => negb (skip_ij q ip jp kp lp) && g0 q ip jp kp lp))))
      (fun n => mul fac (Jk lp (((n mod (len0 * ci * cj)) mod (len0 * ci)) / len0)
         ((n mod (len0 * ci * cj)) / (len0 * ci)) (n / (len0 * ci * cj))
         (((n mod (len0 * ci * cj)) mod (len0 * ci)) mod len0))).
  Proof.
    apply (level_for zero one add mul sub opp Rth isz isz_zero (negb (ci =? 1)) sz 2 sk cfk gk gj (len0 * ci * cj)
             (fun kp => skip_kl q kp lp) (fun kp f => body_j kp lp f)
             (fun kp => anyN (s_np sj) (fun jp => anyN (s_np si) (fun ip => negb (skip_ij q ip jp kp lp) && g0 q ip jp kp lp)))
             (fun kp n => Jj kp lp ((n mod (len0 * ci)) / len0) (n / (len0 * ci)) ((n mod (len0 * ci)) mod len0)) fac);
      [exact Hk|apply L_j|exact Hz2|reflexivity|pose proof G_k; lia|lia|].
    intros kp f _ _. apply body_j_acc.
  Qed.

  Lemma loop4_acc :
    Acc (negb (ci =? 1)) sz 4 gl gl (len0 * ci * cj * ck * cl) loop4 any4 bfull.
  Proof.
    eapply Acc_ext; [|intros m; reflexivity|].
    - apply (level_for zero one add mul sub opp Rth isz isz_zero (negb (ci =? 1)) sz 3 sl cfl gl gk (len0 * ci * cj * ck)
             (fun _ => false) (fun lp f => body_k lp f)
             (fun lp => anyN (s_np sk) (fun kp => negb (skip_kl q kp lp) && anyN (s_np sj) (fun jp => anyN (s_np si) (fun ip => negb (skip_ij q ip jp kp lp) && g0 q ip jp kp lp))))
             (fun lp n => Jk lp (((n mod (len0 * ci * cj)) mod (len0 * ci)) / len0)
         ((n mod (len0 * ci * cj)) / (len0 * ci)) (n / (len0 * ci * cj))
         (((n mod (len0 * ci * cj)) mod (len0 * ci)) mod len0)) common);
      [exact Hl|apply L_k|exact Hz3|reflexivity|pose proof G_l; lia|lia|].
      intros lp f _ _. apply body_k_acc.
    - intros n Hn. cbv beta. unfold bfull. f_equal. unfold Jl. apply lsum_ext. intros lp _. f_equal.
      pose proof L_0. assert (0 < len0) by nia.
      assert (0 < len0 * ci) by nia. assert (0 < len0 * ci * cj) by nia.
      rewrite (mod_mul_mod n (len0 * ci * cj) ck), (mod_mul_mod n (len0 * ci) cj), (mod_mul_mod n len0 ci) by lia.
      rewrite (mod_mul_div n (len0 * ci * cj) ck), (mod_mul_div n (len0 * ci) cj), (mod_mul_div n len0 ci) by lia.
      reflexivity.
  Qed.
  End General.
End Loop2e.

(** ** Specialised loops *)
Section Special.
  Context {F : Type} (zero one : F) (add mul sub : F -> F -> F) (opp : F -> F).
  Hypothesis Rth : ring_theory zero one add mul sub opp (@eq F).
  Variable isz : F -> bool.
  Hypothesis isz_zero : forall c, isz c = true -> c = zero.
  Add Ring Fr3 : Rth.
  Notation sum := (lsum zero add).
  Notation Acc := (Acc zero add).

  Variables (n_comp nf : Z) (si sj sk sl : shl F) (cfi cfj cfk cfl : Z -> Z -> F).
  Hypothesis Hi : shell_ok isz si cfi.
  Hypothesis Hj : shell_ok isz sj cfj.
  Hypothesis Hk : shell_ok isz sk cfk.
  Hypothesis Hl : shell_ok isz sl cfl.
  Hypothesis Hnf : 0 <= nf.
  Hypothesis Hnc : 1 <= n_comp.
  Variable q : quartets F.
  Variable common : F.

  Notation ci := (s_ctr si).
  Notation cj := (s_ctr sj).
  Notation ck := (s_ctr sk).
  Notation cl := (s_ctr sl).
  Let len0 := nf * n_comp.
  Let L0 : 0 <= len0. Proof. unfold len0. nia. Qed.
  Definition e2 ip jp kp lp := mul (e_ij q ip jp) (e_kl q kp lp).
  Notation Ji := (Ji zero add mul si q e2 cfi).
  Notation Jj := (Jj zero add mul si sj cfi cfj q e2).
  Notation Jk := (Jk zero add mul si sj sk cfi cfj cfk q e2).
  Notation bfull := (bfull zero add mul n_comp nf si sj sk sl cfi cfj cfk cfl q common e2).
  Notation any4 := (any4 si sj sk sl q).

  Definition f1s ip jp kp lp (fac1j c : F) := mul (mul (mul fac1j c) (e_ij q ip jp)) (e_kl q kp lp).
  Lemma f1s_ok ip jp kp lp fac c : f1s ip jp kp lp fac c = mul (mul fac c) (e2 ip jp kp lp).
  Proof. unfold f1s, e2. ring. Qed.

  (** innermost loop into (gout, flag) *)
  Definition sp_i (ob ofl : nat) jp kp lp (fac1j : F) : mem F -> option (mem F) :=
    for_ 0 (s_np si) (fun ip m =>
      if skip_ij q ip jp kp lp then Some m else
      c <- rd (s_c si) ip ;;
      if g0 q ip jp kp lp then
        m <- f_gout add m ob (flg m ofl) len0 (fun n => mul (f1s ip jp kp lp fac1j c) (base q ip jp kp lp n)) ;;
        Some (set_flg m ofl false)
      else Some m).
  Definition anyi jp kp lp := anyN (s_np si) (fun ip => negb (skip_ij q ip jp kp lp) && g0 q ip jp kp lp).
  Definition anyj kp lp := anyN (s_np sj) (fun jp => anyi jp kp lp).
  Definition anyk lp := anyN (s_np sk) (fun kp => negb (skip_kl q kp lp) && anyj kp lp).

  Lemma sp_i_acc ig sz lvl ob ofl jp kp lp fac : (ofl = 0%nat -> ig = false) ->
    Acc ig sz lvl ob ofl len0 (sp_i ob ofl jp kp lp fac) (anyi jp kp lp) (fun n => mul fac (Ji jp kp lp 0 n)).
  Proof.
    intros H. apply (plain_inner zero one add mul sub opp Rth isz isz_zero ig sz lvl ob ofl len0 si cfi
      (fun ip => skip_ij q ip jp kp lp) (fun ip => g0 q ip jp kp lp) (fun ip n => base q ip jp kp lp n) fac
      (fun ip => e2 ip jp kp lp) (fun ip c => f1s ip jp kp lp fac c)); auto.
    intros. apply f1s_ok.
  Qed.

  (** loop over j without contraction bookkeeping *)
  Definition pl_j (inner : Z -> F -> mem F -> option (mem F)) (fac1k : F) : mem F -> option (mem F) :=
    for_ 0 (s_np sj) (fun jp m => c <- rd (s_c sj) jp ;; inner jp (mul fac1k c) m).
  Definition pl_k lp (inner : Z -> F -> mem F -> option (mem F)) (fac1l : F) : mem F -> option (mem F) :=
    for_ 0 (s_np sk) (fun kp m => if skip_kl q kp lp then Some m else
      c <- rd (s_c sk) kp ;; inner kp (mul fac1l c) m).
  Definition pl_l (inner : Z -> F -> mem F -> option (mem F)) : mem F -> option (mem F) :=
    for_ 0 (s_np sl) (fun lp m => c <- rd (s_c sl) lp ;; inner lp (mul common c) m).

  Lemma pl_j_acc ig sz lvl ob ofl len inner any J fac :
    (forall p f, Acc ig sz lvl ob ofl len (inner p f) (any p) (fun n => mul f (J p n))) ->
    Acc ig sz lvl ob ofl len (pl_j inner fac) (anyN (s_np sj) any)
      (fun n => mul fac (sum (s_np sj) (fun p => mul (cfj 0 p) (J p n)))).
  Proof.
    intros H. apply (plain_for zero one add mul sub opp Rth isz isz_zero ig sz lvl ob ofl len sj cfj (fun _ => false) inner any J fac); auto.
  Qed.
  Lemma pl_k_acc ig sz lvl ob ofl len lp inner any J fac :
    (forall p f, Acc ig sz lvl ob ofl len (inner p f) (any p) (fun n => mul f (J p n))) ->
    Acc ig sz lvl ob ofl len (pl_k lp inner fac) (anyN (s_np sk) (fun kp => negb (skip_kl q kp lp) && any kp))
      (fun n => mul fac (sum (s_np sk) (fun p => if skip_kl q p lp then zero else mul (cfk 0 p) (J p n)))).
  Proof.
    intros H. apply (plain_for zero one add mul sub opp Rth isz isz_zero ig sz lvl ob ofl len sk cfk (fun kp => skip_kl q kp lp) inner any J fac); auto.
  Qed.
  Lemma pl_l_acc ig sz lvl ob ofl len inner any J :
    (forall p f, Acc ig sz lvl ob ofl len (inner p f) (any p) (fun n => mul f (J p n))) ->
    Acc ig sz lvl ob ofl len (pl_l inner) (anyN (s_np sl) any)
      (fun n => mul common (sum (s_np sl) (fun p => mul (cfl 0 p) (J p n)))).
  Proof.
    intros H. apply (plain_for zero one add mul sub opp Rth isz isz_zero ig sz lvl ob ofl len sl cfl (fun _ => false) inner any J common); auto.
  Qed.

  (** 1111 *)
  Definition op1111 (go : nat) := pl_l (fun lp => pl_k lp (fun kp => pl_j (fun jp => sp_i go go jp kp lp))).
  Lemma op1111_acc sz go : ci = 1 -> cj = 1 -> ck = 1 -> cl = 1 ->
    Acc false sz 0 go go (len0 * ci * cj * ck * cl) (op1111 go) any4 bfull.
  Proof.
    intros E1 E2 E3 E4.
    replace (len0 * ci * cj * ck * cl) with len0 by (rewrite E1, E2, E3, E4; lia).
    eapply Acc_ext; [|intros m; reflexivity|].
    - apply pl_l_acc. intros lp f. apply pl_k_acc. intros kp f'. apply pl_j_acc.
      intros jp f''. apply sp_i_acc. auto.
    - intros n Hn. cbv beta. unfold Loop2eProof.bfull. fold len0. rewrite E1, E2, E3, !Z.mul_1_r, !Z.mod_1_r.
      rewrite Z.div_small, Z.mod_small by lia. reflexivity.
  Qed.

  (** n111 *)
  Definition n_i (go : nat) jp kp lp (fac1j : F) : mem F -> option (mem F) :=
    for_ 0 (s_np si) (fun ip m =>
      if skip_ij q ip jp kp lp then Some m else
      if g0 q ip jp kp lp then
        m <- f_gout add m 0%nat true len0 (fun n => mul (mul (mul fac1j (e_ij q ip jp)) (e_kl q kp lp)) (base q ip jp kp lp n)) ;;
        PRIM2CTR add mul si ip go go 0%nat len0 m
      else Some m).
  Lemma n_i_acc sz go jp kp lp fac : 1 < ci -> (0 < go)%nat -> len0 <= sz 0%nat ->
    Acc true sz 1 go go (len0 * ci) (n_i go jp kp lp fac) (anyi jp kp lp)
      (fun n => mul fac (Ji jp kp lp (n / len0) (n mod len0))).
  Proof.
    intros Hc Hgo Hsz.
    apply (Acc_for_scaled zero one add mul sub opp Rth isz isz_zero); [apply Hi|].
    intros ip Hip.
    destruct (skip_ij q ip jp kp lp) eqn:Es; cbn [negb andb].
    - eapply Acc_ext; [apply (Acc_skip zero one add mul sub opp Rth)|reflexivity|]. intros n _. cbv beta. ring.
    - destruct (g0 q ip jp kp lp) eqn:Ek.
      + pose proof (inner_step zero one add mul sub opp Rth isz isz_zero sz si cfi ip go 0%nat len0
          (fun n => base q ip jp kp lp n) fac (e2 ip jp kp lp)
          (fun c => mul (mul fac c) (e2 ip jp kp lp)) (mul (mul fac (e_ij q ip jp)) (e_kl q kp lp)) Hi Hip L0) as K.
        replace (negb (ci =? 1)) with true in K by lia.
        eapply Acc_inv; [apply K|].
        * intros _. exact Hsz.
        * unfold alias. replace (ci =? 1) with false by lia. reflexivity.
        * exact Hgo.
        * reflexivity.
        * unfold e2. ring.
        * intros m [M1 _]. replace (ci =? 1) with false by lia. cbn [bind]. rewrite M1 by reflexivity. reflexivity.
      + eapply Acc_ext; [apply (Acc_skip zero one add mul sub opp Rth)|reflexivity|]. intros n _. cbv beta. ring.
  Qed.
  Definition opn111 (go : nat) := pl_l (fun lp => pl_k lp (fun kp => pl_j (fun jp => n_i go jp kp lp))).
  Lemma opn111_acc sz go : 1 < ci -> cj = 1 -> ck = 1 -> cl = 1 -> (0 < go)%nat -> len0 <= sz 0%nat ->
    Acc true sz 1 go go (len0 * ci * cj * ck * cl) (opn111 go) any4 bfull.
  Proof.
    intros E1 E2 E3 E4 Hgo Hsz.
    replace (len0 * ci * cj * ck * cl) with (len0 * ci) by (rewrite E2, E3, E4; lia).
    eapply Acc_ext; [|intros m; reflexivity|].
    - apply pl_l_acc. intros lp f. apply pl_k_acc. intros kp f'. apply pl_j_acc.
      intros jp f''. apply n_i_acc; auto.
    - intros n Hn. cbv beta. unfold Loop2eProof.bfull. fold len0. rewrite E2, E3, !Z.mul_1_r, !Z.mod_1_r.
      rewrite (Z.div_small n (len0 * ci)) by lia. rewrite (Z.mod_small (n / len0)); [reflexivity|].
      assert (0 < len0) by nia. split; [apply Z.div_pos; lia|apply Z.div_lt_upper_bound; lia].
  Qed.

  (** 1n11 *)
  Definition c_j (go : nat) kp lp (fac1k : F) : mem F -> option (mem F) :=
    for_ 0 (s_np sj) (fun jp m =>
      m <- sp_i 0 1 jp kp lp fac1k (set_flg m 1%nat true) ;;
      if negb (flg m 1%nat) then PRIM2CTR add mul sj jp go go 0%nat len0 m else Some m).
  Definition op1n11 (go : nat) := pl_l (fun lp => pl_k lp (fun kp => c_j go kp lp)).
  Lemma op1n11_acc sz go : ci = 1 -> 1 < cj -> ck = 1 -> cl = 1 -> (2 <= go)%nat -> len0 <= sz 0%nat ->
    Acc false sz 2 go go (len0 * ci * cj * ck * cl) (op1n11 go) any4 bfull.
  Proof.
    intros E1 E2 E3 E4 Hgo Hsz.
    replace (len0 * ci * cj * ck * cl) with (len0 * cj) by (rewrite E1, E3, E4; lia).
    eapply Acc_ext; [|intros m; reflexivity|].
    - apply pl_l_acc. intros lp f. apply pl_k_acc. intros kp f'.
      apply (ctr_for zero one add mul sub opp Rth isz isz_zero false sz 2 0 sj cfj go 0 1 len0 (fun _ => false)
               (fun jp => sp_i 0 1 jp kp lp f') (fun jp => anyi jp kp lp) (fun jp n => Ji jp kp lp 0 n) f'); auto; try lia.
      intros jp _ _. apply sp_i_acc. auto.
    - intros n Hn. cbv beta. unfold Loop2eProof.bfull. fold len0. rewrite E1, E3, !Z.mul_1_r, !Z.mod_1_r.
      rewrite (Z.div_small n (len0 * cj)) by lia. rewrite (Z.mod_small (n / len0)); [reflexivity|].
      assert (0 < len0) by nia. split; [apply Z.div_pos; lia|apply Z.div_lt_upper_bound; lia].
  Qed.

  (** 11n1 *)
  Definition c_k (go : nat) lp (fac1l : F) : mem F -> option (mem F) :=
    for_ 0 (s_np sk) (fun kp m => if skip_kl q kp lp then Some m else
      m <- pl_j (fun jp => sp_i 0 2 jp kp lp) fac1l (set_flg m 2%nat true) ;;
      if negb (flg m 2%nat) then PRIM2CTR add mul sk kp go go 0%nat len0 m else Some m).
  Definition op11n1 (go : nat) := pl_l (fun lp => c_k go lp).
  Lemma op11n1_acc sz go : ci = 1 -> cj = 1 -> 1 < ck -> cl = 1 -> (3 <= go)%nat -> len0 <= sz 0%nat ->
    Acc false sz 3 go go (len0 * ci * cj * ck * cl) (op11n1 go) any4 bfull.
  Proof.
    intros E1 E2 E3 E4 Hgo Hsz.
    replace (len0 * ci * cj * ck * cl) with (len0 * ck) by (rewrite E1, E2, E4; lia).
    eapply Acc_ext; [|intros m; reflexivity|].
    - apply pl_l_acc. intros lp f.
      apply (ctr_for zero one add mul sub opp Rth isz isz_zero false sz 3 0 sk cfk go 0 2 len0 (fun kp => skip_kl q kp lp)
               (fun kp => pl_j (fun jp => sp_i 0 2 jp kp lp) f) (fun kp => anyj kp lp)
               (fun kp n => Jj kp lp 0 0 n) f); auto; try lia.
      intros kp _ _. apply pl_j_acc. intros jp f'. apply sp_i_acc. auto.
    - intros n Hn. cbv beta. unfold Loop2eProof.bfull. fold len0. rewrite E1, E2, !Z.mul_1_r, !Z.mod_1_r.
      rewrite (Z.div_small n (len0 * ck)) by lia. rewrite (Z.mod_small (n / len0)); [reflexivity|].
      assert (0 < len0) by nia. split; [apply Z.div_pos; lia|apply Z.div_lt_upper_bound; lia].
  Qed.

  (** 111n *)
  Definition op111n (go : nat) : mem F -> option (mem F) :=
    for_ 0 (s_np sl) (fun lp m =>
      m <- pl_k lp (fun kp => pl_j (fun jp => sp_i 0 3 jp kp lp)) common (set_flg m 3%nat true) ;;
      if negb (flg m 3%nat) then PRIM2CTR add mul sl lp go go 0%nat len0 m else Some m).
  Lemma op111n_acc sz go : ci = 1 -> cj = 1 -> ck = 1 -> 1 < cl -> (4 <= go)%nat -> len0 <= sz 0%nat ->
    Acc false sz 4 go go (len0 * ci * cj * ck * cl) (op111n go) any4 bfull.
  Proof.
    intros E1 E2 E3 E4 Hgo Hsz.
    replace (len0 * ci * cj * ck * cl) with (len0 * cl) by (rewrite E1, E2, E3; lia).
    eapply Acc_ext; [|intros m; reflexivity|].
    - apply (ctr_for zero one add mul sub opp Rth isz isz_zero false sz 4 0 sl cfl go 0 3 len0 (fun _ => false)
               (fun lp => pl_k lp (fun kp => pl_j (fun jp => sp_i 0 3 jp kp lp)) common) (fun lp => anyk lp)
               (fun lp n => Jk lp 0 0 0 n) common); auto; try lia.
      intros lp _ _. apply pl_k_acc. intros kp f. apply pl_j_acc. intros jp f'. apply sp_i_acc. auto.
    - intros n Hn. cbv beta. unfold Loop2eProof.bfull. fold len0. rewrite E1, E2, E3, !Z.mul_1_r, !Z.mod_1_r.
      reflexivity.
  Qed.
End Special.

(** ** The loops *)
Lemma row_div nf A n_comp r c : 0 < nf * A -> 0 <= c < n_comp ->
  (r * n_comp + c) / (nf * n_comp * A) = r / (nf * A).
Proof.
  intros H Hc. replace (nf * n_comp * A) with (n_comp * (nf * A)) by lia.
  rewrite <- Z.div_div by lia. f_equal. rewrite Z.div_add_l by lia. rewrite (Z.div_small c) by lia. lia.
Qed.
Lemma row_mod nf n_comp r c : 0 < nf -> 0 <= c < n_comp ->
  (r * n_comp + c) mod (nf * n_comp) = (r mod nf) * n_comp + c.
Proof.
  intros H Hc. rewrite (Z.mul_comm nf), Z.rem_mul_r by lia.
  rewrite Z.div_add_l, (Z.div_small c) by lia. rewrite (Z.add_comm (r * n_comp) c), Z.mod_add, Z.mod_small by lia.
  rewrite Z.add_0_r. lia.
Qed.

Section Final.
  Context {F : Type} (zero one : F) (add mul sub : F -> F -> F) (opp : F -> F).
  Hypothesis Rth : ring_theory zero one add mul sub opp (@eq F).
  Variable isz : F -> bool.
  Hypothesis isz_zero : forall c, isz c = true -> c = zero.
  Add Ring Fr4 : Rth.
  Notation Acc := (Acc zero add).

  Variables (n_comp nf : Z) (si sj sk sl : shl F) (cfi cfj cfk cfl : Z -> Z -> F).
  Hypothesis Hi : shell_ok isz si cfi.
  Hypothesis Hj : shell_ok isz sj cfj.
  Hypothesis Hk : shell_ok isz sk cfk.
  Hypothesis Hl : shell_ok isz sl cfl.
  Hypothesis Hnf : 0 <= nf.
  Hypothesis Hnc : 1 <= n_comp.
  Variable q : quartets F.
  Variable common : F.

  Notation ci := (s_ctr si).
  Notation cj := (s_ctr sj).
  Notation ck := (s_ctr sk).
  Notation cl := (s_ctr sl).
  Notation len0 := (nf * n_comp).
  Variable ev : Z -> Z -> Z -> Z -> F.
  Notation bfull := (bfull zero add mul n_comp nf si sj sk sl cfi cfj cfk cfl q common ev).
  Notation any4 := (any4 si sj sk sl q).

  Definition kept ip jp kp lp := negb (pair_empty q) && keep4 q ip jp kp lp.
  Definition B4 := batch4 zero add mul (s_np si) (s_np sj) (s_np sk) (s_np sl) kept cfi cfj cfk cfl
        (fun ip jp kp lp x => mul (ev ip jp kp lp) (base q ip jp kp lp x)) common nf n_comp ci cj ck.
  Definition res4 (m : mem F) (T : Z -> Z -> F) (r : mem F * bool) : Prop :=
    (pair_empty q = false -> snd r = negb (flg (fst r) 5%nat)) /\
    accumulated add m (fst r) (nf * (ci * cj * ck * cl)) n_comp
      (some4 (s_np si) (s_np sj) (s_np sk) (s_np sl) kept) T B4.

  Lemma bfull_B4 : pair_empty q = false -> forall r c, 0 <= r < nf * (ci * cj * ck * cl) -> 0 <= c < n_comp ->
    bfull (r * n_comp + c) = B4 r c.
  Proof.
    intros E r c Hr Hc.
    pose proof (shell_ctr1 isz si cfi Hi) as C1. pose proof (shell_ctr1 isz sj cfj Hj) as C2.
    pose proof (shell_ctr1 isz sk cfk Hk) as C3. pose proof (shell_ctr1 isz sl cfl Hl) as C4.
    assert (0 < nf) by nia.
    assert (0 < ci * cj) by nia. assert (0 < ci * cj * ck) by nia.
    unfold bfull, B4, batch4. rewrite (Jl_contract zero one add mul sub opp Rth isz isz_zero).
    f_equal.
    replace (kept) with (fun ip jp kp lp => keep4 q ip jp kp lp).
    2: { unfold kept. rewrite E. reflexivity. }
    f_equal.
    - replace len0 with (nf * n_comp * 1) by lia. rewrite row_div by lia. f_equal. f_equal. lia.
    - rewrite row_div by nia. reflexivity.
    - replace (len0 * ci * cj) with (len0 * (ci * cj)) by lia. rewrite row_div by nia. f_equal. f_equal. lia.
    - replace (len0 * ci * cj * ck) with (len0 * (ci * cj * ck)) by lia. rewrite row_div by nia. f_equal. lia.
    - apply row_mod; lia.
  Qed.

  Lemma acc_ext m m' rows nc (P P' : Prop) T V V' : (P <-> P') ->
    (forall r c, 0 <= r < rows -> 0 <= c < nc -> V r c = V' r c) ->
    accumulated add m m' rows nc P T V -> accumulated add m m' rows nc P' T V'.
  Proof.
    intros HP HV (A1 & A2 & A3 & A4). unfold accumulated. rewrite <- HP.
    repeat split; try tauto; auto.
    intros E r c Hr Hc. rewrite (A4 E r c Hr Hc), (HV r c Hr Hc). reflexivity.
  Qed.

  Lemma wrap4 ig own lvl (op : mem F -> option (mem F)) m T nc :
    (own < 5)%nat -> (lvl <= 5)%nat -> nc = ci * cj * ck * cl ->
    Acc ig (fun t => asize (buf m t)) lvl (alias n_comp 5 own) (alias n_comp 5 own) (len0 * ci * cj * ck * cl) op any4 bfull ->
    caller_holds m (nf * (ci * cj * ck * cl)) n_comp T ->
    (n_comp <> 1 -> len0 * ci * cj * ck * cl <= asize (buf m own)) ->
    wp (if pair_empty q then Some (m, false) else
        m <- op (reset_flags m) ;;
        m <- (if (1 <? n_comp) && negb (flg m (alias n_comp 5 own)) then TRANSPOSE add (alias n_comp 5 own) (nf * nc) n_comp m else Some m) ;;
        Some (m, negb (flg m 5%nat))) (res4 m T).
  Proof.
    intros Hown Hlvl -> Hacc Hcall Hsz.
    pose proof (shell_ctr1 isz si cfi Hi) as C1. pose proof (shell_ctr1 isz sj cfj Hj) as C2.
    pose proof (shell_ctr1 isz sk cfk Hk) as C3. pose proof (shell_ctr1 isz sl cfl Hl) as C4.
    destruct (pair_empty q) eqn:E.
    - cbn [wp]. unfold res4. split; [congruence|]. cbn [fst]. unfold accumulated.
      assert (NS : ~ some4 (s_np si) (s_np sj) (s_np sk) (s_np sl) kept).
      { intros (ip & jp & kp & lp & _ & _ & _ & _ & H). unfold kept in H. rewrite E in H. discriminate. }
      split; [tauto|]. split; [reflexivity|]. split; [reflexivity|].
      intros Ef r c Hr Hc. rewrite Ef. destruct Hcall as [_ HT]. rewrite HT by auto. f_equal.
      unfold B4, batch4, contract4.
      rewrite (sum_zero zero one add mul sub opp Rth isz isz_zero); [ring|]. intros lp _.
      apply (sum_zero zero one add mul sub opp Rth isz isz_zero). intros kp _.
      apply (sum_zero zero one add mul sub opp Rth isz isz_zero). intros jp _.
      apply (sum_zero zero one add mul sub opp Rth isz isz_zero). intros ip _.
      unfold kept. rewrite E. reflexivity.
    - replace (len0 * ci * cj * ck * cl) with (nf * (ci * cj * ck * cl) * n_comp) in * by lia.
      assert (0 <= ci * cj) by nia. assert (0 <= ci * cj * ck) by nia. assert (0 <= ci * cj * ck * cl) by nia.
      eapply wp_mono.
      + apply (finish zero one add mul sub opp Rth ig (fun t => asize (buf m t)) lvl own n_comp
                 (nf * (ci * cj * ck * cl)) (alias n_comp 5 own) op any4 bfull (reset_flags m) T); auto.
        * nia.
        * split; [reflexivity|cbn; lia].
        * cbn. destruct (Nat.eqb_spec own 5); [lia|reflexivity].
      + intros r [R1 R2]. split; [intros _; exact R1|].
        change (accumulated add m (fst r) (nf * (ci * cj * ck * cl)) n_comp (any4 = true) T (fun r c => bfull (r * n_comp + c))) in R2.
        eapply acc_ext; [|intros; apply bfull_B4; auto|exact R2].
        rewrite any4_some. split; intros (ip & jp & kp & lp & ? & ? & ? & ? & ?);
          exists ip, jp, kp, lp; unfold kept in *; rewrite E in *; auto 10.
  Qed.

End Final.

Section Loops.
  Context {F : Type} (zero one : F) (add mul sub : F -> F -> F) (opp : F -> F).
  Hypothesis Rth : ring_theory zero one add mul sub opp (@eq F).
  Variable isz : F -> bool.
  Hypothesis isz_zero : forall c, isz c = true -> c = zero.
  Add Ring Fr5 : Rth.
  Notation Acc := (Acc zero add).

  Variables (n_comp nf : Z) (si sj sk sl : shl F) (cfi cfj cfk cfl : Z -> Z -> F).
  Hypothesis Hi : shell_ok isz si cfi.
  Hypothesis Hj : shell_ok isz sj cfj.
  Hypothesis Hk : shell_ok isz sk cfk.
  Hypothesis Hl : shell_ok isz sl cfl.
  Hypothesis Hnf : 0 <= nf.
  Hypothesis Hnc : 1 <= n_comp.
  Variable q : quartets F.
  Variable common : F.
  Notation ci := (s_ctr si).
  Notation cj := (s_ctr sj).
  Notation ck := (s_ctr sk).
  Notation cl := (s_ctr sl).
  Notation len0 := (nf * n_comp).
  Notation e2 := (fun ip jp kp lp => mul (e_ij q ip jp) (e_kl q kp lp)).
  Notation res4 := (res4 zero add mul n_comp nf si sj sk sl cfi cfj cfk cfl q common e2).
  Let wrap4 := wrap4 zero one add mul sub opp Rth isz isz_zero n_comp nf si sj sk sl cfi cfj cfk cfl Hi Hj Hk Hl Hnf Hnc q common e2.

  (** Scratch of the general loops. *)
  Definition need4 : list (nat * Z) :=
    needs (negb (ci =? 1)) 0 len0 ++ needs (negb (cj =? 1)) 1 (len0 * ci) ++
    needs (negb (ck =? 1)) 2 (len0 * ci * cj) ++ needs (negb (cl =? 1)) 3 (len0 * ci * cj * ck) ++
    needs (negb (n_comp =? 1)) 4 (len0 * ci * cj * ck * cl).

  Lemma need4_ok (m : mem F) : fits m need4 ->
    (ci <> 1 -> len0 <= asize (buf m 0%nat)) /\ (cj <> 1 -> len0 * ci <= asize (buf m 1%nat)) /\
    (ck <> 1 -> len0 * ci * cj <= asize (buf m 2%nat)) /\ (cl <> 1 -> len0 * ci * cj * ck <= asize (buf m 3%nat)) /\
    (n_comp <> 1 -> len0 * ci * cj * ck * cl <= asize (buf m 4%nat)).
  Proof.
    intros H. unfold fits, need4, needs in H.
    repeat split; intros E; apply H; apply Z.eqb_neq in E; rewrite E; cbn [negb];
      rewrite !in_app_iff; cbn; auto 10.
  Qed.

  Lemma lens : nf * ci * n_comp = len0 * ci /\ nf * ci * cj * n_comp = len0 * ci * cj /\
     nf * ci * cj * ck * n_comp = len0 * ci * cj * ck.
  Proof. repeat split; ring. Qed.

  Lemma loop_nopt_ok m T : caller_holds m (nf * (ci * cj * ck * cl)) n_comp T -> fits m need4 ->
    wp (CINT2e_loop_nopt add mul n_comp nf si sj sk sl common q m) (res4 m T).
  Proof.
    intros Hc Hf. apply need4_ok in Hf. destruct Hf as (Z0 & Z1 & Z2 & Z3 & Z4).
    unfold CINT2e_loop_nopt. destruct lens as (-> & -> & ->).
    apply (wrap4 (negb (ci =? 1)) 4 4 (loop4 add mul n_comp nf si sj sk sl q common
       (fun ip jp kp lp f c => mul (mul f c) (mul (e_ij q ip jp) (e_kl q kp lp)))
       (fun ip jp kp lp f => mul f (mul (e_ij q ip jp) (e_kl q kp lp))))); auto.
    apply (loop4_acc zero one add mul sub opp Rth isz isz_zero); auto.
  Qed.

  Lemma loop_opt_ok m T : caller_holds m (nf * (ci * cj * ck * cl)) n_comp T -> fits m need4 ->
    wp (CINT2e_loop add mul n_comp nf si sj sk sl common q m) (res4 m T).
  Proof.
    intros Hc Hf. apply need4_ok in Hf. destruct Hf as (Z0 & Z1 & Z2 & Z3 & Z4).
    unfold CINT2e_loop. destruct lens as (-> & -> & ->).
    apply (wrap4 (negb (ci =? 1)) 4 4 (loop4 add mul n_comp nf si sj sk sl q common
       (fun ip jp kp lp f c => mul (mul (mul f c) (e_ij q ip jp)) (e_kl q kp lp))
       (fun ip jp kp lp f => mul (mul f (e_ij q ip jp)) (e_kl q kp lp)))); auto.
    apply (loop4_acc zero one add mul sub opp Rth isz isz_zero); auto; intros; ring.
  Qed.

  (** Scratch of the specialised loops: gout (buffer 0) and, with several components, the
      buffer [own] of the contracted batch. *)
  Definition need_sp (own : nat) : list (nat * Z) :=
    needs (negb (Nat.eqb own 0)) 0 len0 ++ needs (negb (n_comp =? 1)) own (len0 * ci * cj * ck * cl).
  Lemma need_sp_ok (m : mem F) own : fits m (need_sp own) ->
    (own <> 0%nat -> len0 <= asize (buf m 0%nat)) /\
    (n_comp <> 1 -> len0 * ci * cj * ck * cl <= asize (buf m own)).
  Proof.
    intros H. unfold fits, need_sp, needs in H. split; intros E; apply H; rewrite in_app_iff.
    - apply Nat.eqb_neq in E. rewrite E. cbn. auto.
    - apply Z.eqb_neq in E. rewrite E. cbn. auto.
  Qed.

  Lemma loop_1111_ok m T : ci = 1 -> cj = 1 -> ck = 1 -> cl = 1 ->
    caller_holds m (nf * (ci * cj * ck * cl)) n_comp T -> fits m (need_sp 0) ->
    wp (CINT2e_1111_loop add mul n_comp nf si sj sk sl common q m) (res4 m T).
  Proof.
    intros E1 E2 E3 E4 Hc Hf. apply need_sp_ok in Hf. destruct Hf as (Z0 & Z1).
    apply (wrap4 false 0 0 (op1111 add mul n_comp nf si sj sk sl q common (alias n_comp 5 0))); auto; try lia.
    apply (op1111_acc zero one add mul sub opp Rth isz isz_zero); auto.
  Qed.
  Lemma loop_n111_ok m T : ci <> 1 -> cj = 1 -> ck = 1 -> cl = 1 ->
    caller_holds m (nf * (ci * cj * ck * cl)) n_comp T -> fits m (need_sp 1) ->
    wp (CINT2e_n111_loop add mul n_comp nf si sj sk sl common q m) (res4 m T).
  Proof.
    intros E1 E2 E3 E4 Hc Hf. apply need_sp_ok in Hf. destruct Hf as (Z0 & Z1).
    pose proof (shell_ctr1 isz si cfi Hi).
    apply (wrap4 true 1 1 (opn111 add mul n_comp nf si sj sk sl q common (alias n_comp 5 1))); auto; try lia.
    apply (opn111_acc zero one add mul sub opp Rth isz isz_zero); auto; try lia.
    unfold alias. destruct (n_comp =? 1); lia.
  Qed.
  Lemma loop_1n11_ok m T : ci = 1 -> cj <> 1 -> ck = 1 -> cl = 1 ->
    caller_holds m (nf * (ci * cj * ck * cl)) n_comp T -> fits m (need_sp 2) ->
    wp (CINT2e_1n11_loop add mul n_comp nf si sj sk sl common q m) (res4 m T).
  Proof.
    intros E1 E2 E3 E4 Hc Hf. apply need_sp_ok in Hf. destruct Hf as (Z0 & Z1).
    pose proof (shell_ctr1 isz sj cfj Hj).
    apply (wrap4 false 2 2 (op1n11 add mul n_comp nf si sj sk sl q common (alias n_comp 5 2))); auto; try lia.
    apply (op1n11_acc zero one add mul sub opp Rth isz isz_zero); auto; try lia.
    unfold alias. destruct (n_comp =? 1); lia.
  Qed.
  Lemma loop_11n1_ok m T : ci = 1 -> cj = 1 -> ck <> 1 -> cl = 1 ->
    caller_holds m (nf * (ci * cj * ck * cl)) n_comp T -> fits m (need_sp 3) ->
    wp (CINT2e_11n1_loop add mul n_comp nf si sj sk sl common q m) (res4 m T).
  Proof.
    intros E1 E2 E3 E4 Hc Hf. apply need_sp_ok in Hf. destruct Hf as (Z0 & Z1).
    pose proof (shell_ctr1 isz sk cfk Hk).
    apply (wrap4 false 3 3 (op11n1 add mul n_comp nf si sj sk sl q common (alias n_comp 5 3))); auto; try lia.
    apply (op11n1_acc zero one add mul sub opp Rth isz isz_zero); auto; try lia.
    unfold alias. destruct (n_comp =? 1); lia.
  Qed.
  Lemma loop_111n_ok m T : ci = 1 -> cj = 1 -> ck = 1 -> cl <> 1 ->
    caller_holds m (nf * (ci * cj * ck * cl)) n_comp T -> fits m (need_sp 4) ->
    wp (CINT2e_111n_loop add mul n_comp nf si sj sk sl common q m) (res4 m T).
  Proof.
    intros E1 E2 E3 E4 Hc Hf. apply need_sp_ok in Hf. destruct Hf as (Z0 & Z1).
    pose proof (shell_ctr1 isz sl cfl Hl).
    apply (wrap4 false 4 4 (op111n add mul n_comp nf si sj sk sl q common (alias n_comp 5 4))); auto; try lia.
    apply (op111n_acc zero one add mul sub opp Rth isz isz_zero); auto; try lia.
    unfold alias. destruct (n_comp =? 1); lia.
  Qed.

  (** Dispatch: scratch large enough for the loop that runs. *)
  Definition need_any : list (nat * Z) :=
    match ci =? 1, cj =? 1, ck =? 1, cl =? 1 with
    | true, true, true, true => need_sp 0
    | false, true, true, true => need_sp 1
    | true, false, true, true => need_sp 2
    | true, true, false, true => need_sp 3
    | true, true, true, false => need_sp 4
    | _, _, _, _ => need4
    end.
  Lemma dispatch_ok m T :
    caller_holds m (nf * (ci * cj * ck * cl)) n_comp T -> fits m need_any ->
    wp (CINT2e_opt_dispatch add mul n_comp nf si sj sk sl common q m) (res4 m T).
  Proof.
    intros Hc Hf. unfold need_any in Hf.
    unfold CINT2e_opt_dispatch.
    destruct (ci =? 1) eqn:E1, (cj =? 1) eqn:E2, (ck =? 1) eqn:E3, (cl =? 1) eqn:E4;
      rewrite ?Z.eqb_eq, ?Z.eqb_neq in *; unfold b2z, CINTf_2e_loop; cbn;
      first [apply loop_1111_ok | apply loop_n111_ok | apply loop_1n11_ok | apply loop_11n1_ok
            | apply loop_111n_ok | apply loop_opt_ok]; auto.
  Qed.
End Loops.
