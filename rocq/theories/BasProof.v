(** BasProof.v — proofs about src/cint_bas.c. *)
From Verif Require Import Base BasModel BasSpec.
From Coq Require Import ZifyBool ZifyNat Sorting.Sorted.
Ltac Zify.zify_post_hook ::= Z.div_mod_to_equations.

Lemma quot_tri l : 0 <= l -> Z.quot ((l + 1) * (l + 2)) 2 = (l + 1) * (l + 2) / 2.
Proof. intros H. apply Z.quot_div_nonneg; nia. Qed.

Lemma CINTlen_cart_ok l : 0 <= l -> CINTlen_cart l = (l + 1) * (l + 2) / 2.
Proof. apply quot_tri. Qed.

(** ** Counting *)
Section Count.
  Variables (bas : arr Z) (b : list shell).
  Hypothesis Hst : stores bas b.

  Lemma nth_Z (i : Z) : 0 <= i < Z.of_nat (length b) ->
    exists s, nth_error b (Z.to_nat i) = Some s.
  Proof.
    intros Hi. destruct (nth_error b (Z.to_nat i)) as [s|] eqn:E; [eauto|].
    apply nth_error_None in E. lia.
  Qed.

  Lemma slot_l i s : 0 <= i -> nth_error b (Z.to_nat i) = Some s -> bas_at bas ANG_OF i = Some (sh_l s).
  Proof.
    intros Hi Hs. apply Hst in Hs. destruct Hs as [H1 _].
    unfold bas_at, BAS_SLOTS, ANG_OF. rewrite Z2Nat.id in H1 by lia. exact H1.
  Qed.
  Lemma slot_nprim i s : 0 <= i -> nth_error b (Z.to_nat i) = Some s -> bas_at bas NPRIM_OF i = Some (sh_nprim s).
  Proof.
    intros Hi Hs. apply Hst in Hs. destruct Hs as [_ [H1 _]].
    unfold bas_at, BAS_SLOTS, NPRIM_OF. rewrite Z2Nat.id in H1 by lia. exact H1.
  Qed.
  Lemma slot_nctr i s : 0 <= i -> nth_error b (Z.to_nat i) = Some s -> bas_at bas NCTR_OF i = Some (sh_nctr s).
  Proof.
    intros Hi Hs. apply Hst in Hs. destruct Hs as [_ [_ [H1 _]]].
    unfold bas_at, BAS_SLOTS, NCTR_OF. rewrite Z2Nat.id in H1 by lia. exact H1.
  Qed.
  Lemma slot_kappa i s : 0 <= i -> nth_error b (Z.to_nat i) = Some s -> bas_at bas KAPPA_OF i = Some (sh_kappa s).
  Proof.
    intros Hi Hs. apply Hst in Hs. destruct Hs as [_ [_ [_ H1]]].
    unfold bas_at, BAS_SLOTS, KAPPA_OF. rewrite Z2Nat.id in H1 by lia. exact H1.
  Qed.

  Lemma cgto_cart_ok i s : 0 <= i -> 0 <= sh_l s -> nth_error b (Z.to_nat i) = Some s ->
    CINTcgto_cart i bas = Some (cart_fns s * sh_nctr s).
  Proof.
    intros Hi Hl Hs. unfold CINTcgto_cart. rewrite (slot_l i s Hi Hs), (slot_nctr i s Hi Hs). simpl.
    rewrite quot_tri by exact Hl. reflexivity.
  Qed.
  Lemma cgto_sph_ok i s : 0 <= i -> nth_error b (Z.to_nat i) = Some s ->
    CINTcgto_spheric i bas = Some (sph_fns s * sh_nctr s).
  Proof.
    intros Hi Hs. unfold CINTcgto_spheric. rewrite (slot_l i s Hi Hs), (slot_nctr i s Hi Hs). simpl.
    unfold sph_fns. f_equal. ring.
  Qed.
  Lemma len_spinor_ok i s : 0 <= i -> nth_error b (Z.to_nat i) = Some s ->
    CINTlen_spinor i bas = Some (spinor_fns s).
  Proof.
    intros Hi Hs. unfold CINTlen_spinor. rewrite (slot_l i s Hi Hs), (slot_kappa i s Hi Hs). cbn [bind].
    unfold spinor_fns. destruct (sh_kappa s); reflexivity.
  Qed.
  Lemma cgto_spinor_ok i s : 0 <= i -> nth_error b (Z.to_nat i) = Some s ->
    CINTcgto_spinor i bas = Some (spinor_fns s * sh_nctr s).
  Proof.
    intros Hi Hs. unfold CINTcgto_spinor. rewrite (len_spinor_ok i s Hi Hs), (slot_nctr i s Hi Hs). reflexivity.
  Qed.

  Lemma total_firstn_succ (f : shell -> Z) i s : nth_error b i = Some s ->
    total f (firstn (S i) b) = total f (firstn i b) + f s.
  Proof.
    clear Hst. revert i. induction b as [|a b' IH]; intros [|i] Hs; simpl in Hs; try discriminate.
    - injection Hs as ->. simpl. lia.
    - cbn [firstn total]. simpl in IH. rewrite <- (Z.add_assoc (f a)). f_equal.
      exact (IH i Hs).
  Qed.

  (** Accumulation loops return totals, whatever per-shell function is summed. *)
  Lemma accum_ok (g : Z -> Z -> option Z) (f : shell -> Z) :
    (forall i acc s, 0 <= i -> nth_error b (Z.to_nat i) = Some s -> g i acc = Some (acc + f s)) ->
    for_ 0 (Z.of_nat (length b)) g 0 = Some (total f b).
  Proof.
    intros Hg.
    assert (H : wp (for_ 0 (Z.of_nat (length b)) g 0) (fun r => r = total f b)).
    { apply wp_for with (I := fun i acc => acc = total f (firstn (Z.to_nat i) b)).
      - lia.
      - reflexivity.
      - intros i acc Hi ->. destruct (nth_Z i Hi) as [s Hs].
        rewrite (Hg i _ s (proj1 Hi) Hs). simpl.
        replace (Z.to_nat (i + 1)) with (S (Z.to_nat i)) by lia.
        symmetry. apply total_firstn_succ. exact Hs.
      - intros acc ->. rewrite Nat2Z.id, firstn_all. reflexivity. }
    apply wp_exists in H. destruct H as [r [Hr ->]]. exact Hr.
  Qed.

  Lemma tot_cart_ok : Forall (fun s => 0 <= sh_l s) b ->
    CINTtot_cgto_cart bas (Z.of_nat (length b)) = Some (total (fun s => cart_fns s * sh_nctr s) b).
  Proof.
    intros Hl. apply accum_ok. intros i acc s Hi Hs.
    rewrite (cgto_cart_ok i s Hi); [reflexivity| |exact Hs].
    rewrite Forall_forall in Hl. apply Hl. eapply nth_error_In. exact Hs.
  Qed.
  Lemma tot_sph_ok :
    CINTtot_cgto_spheric bas (Z.of_nat (length b)) = Some (total (fun s => sph_fns s * sh_nctr s) b).
  Proof.
    apply accum_ok. intros i acc s Hi Hs. rewrite (cgto_sph_ok i s Hi Hs). reflexivity.
  Qed.
  Lemma tot_spinor_ok :
    CINTtot_cgto_spinor bas (Z.of_nat (length b)) = Some (total (fun s => spinor_fns s * sh_nctr s) b).
  Proof.
    apply accum_ok. intros i acc s Hi Hs. rewrite (cgto_spinor_ok i s Hi Hs). reflexivity.
  Qed.
  Lemma tot_psph_ok :
    CINTtot_pgto_spheric bas (Z.of_nat (length b)) = Some (total (fun s => sph_fns s * sh_nprim s) b).
  Proof.
    apply accum_ok. intros i acc s Hi Hs. rewrite (slot_l i s Hi Hs), (slot_nprim i s Hi Hs). simpl.
    unfold sph_fns. f_equal. ring.
  Qed.
  Lemma tot_pspinor_ok :
    CINTtot_pgto_spinor bas (Z.of_nat (length b)) = Some (total (fun s => spinor_fns s * sh_nprim s) b).
  Proof.
    apply accum_ok. intros i acc s Hi Hs. rewrite (len_spinor_ok i s Hi Hs), (slot_nprim i s Hi Hs). reflexivity.
  Qed.

  (** ** Offsets *)
  Lemma offset_ok (f : Z -> arr Z -> option Z) (sz : shell -> Z) (ao : arr Z) :
    (forall i s, 0 <= i -> nth_error b (Z.to_nat i) = Some s -> f i bas = Some (sz s)) ->
    b <> [] -> Z.of_nat (length b) <= asize ao ->
    exists ao', shells_cgto_offset f ao bas (Z.of_nat (length b)) = Some ao' /\
      asize ao' = asize ao /\
      (forall k, (k < length b)%nat -> rd ao' (Z.of_nat k) = Some (total sz (firstn k b))) /\
      (forall i, ~ (0 <= i < Z.of_nat (length b)) -> acell ao' i = acell ao i).
  Proof.
    intros Hf Hne Hsz. apply wp_exists. unfold shells_cgto_offset.
    assert (Hlen : 0 < Z.of_nat (length b)) by (destruct b; [congruence|simpl; lia]).
    apply wp_bind. apply wp_wr; [lia|]. intros ao1 Hs1 Hc1.
    apply wp_for with (I := fun i a => asize a = asize ao /\
      (forall k, 0 <= k < i -> rd a k = Some (total sz (firstn (Z.to_nat k) b))) /\
      (forall j, ~ (0 <= j < Z.of_nat (length b)) -> acell a j = acell ao j)).
    - lia.
    - split; [lia|]. split.
      + intros k Hk. apply rd_spec. rewrite Hc1. replace k with 0 by lia. simpl. split; [lia|reflexivity].
      + intros j Hj. rewrite Hc1. destruct (j =? 0) eqn:E; [lia|reflexivity].
    - intros i a Hi [Ha [Hr Hfr]]. destruct (nth_Z (i - 1)) as [s Hs]; [lia|].
      apply wp_bind. eapply wp_rd; [apply Hr; lia|].
      rewrite (Hf (i - 1) s); [|lia|exact Hs]. cbn [bind].
      apply wp_wr; [lia|]. intros a' Hs' Hc'. split; [lia|]. split.
      + intros k Hk. apply rd_spec. rewrite Hc'. destruct (k =? i) eqn:E.
        * split; [lia|]. f_equal. replace k with (i - 1 + 1) by lia.
          replace (Z.to_nat (i - 1 + 1)) with (S (Z.to_nat (i - 1))) by lia.
          symmetry. apply total_firstn_succ. exact Hs.
        * rewrite Hs'. apply rd_spec. apply Hr. lia.
      + intros j Hj. rewrite Hc'. destruct (j =? i) eqn:E; [lia|]. apply Hfr. exact Hj.
    - intros a [Ha [Hr Hfr]]. split; [exact Ha|]. split; [|exact Hfr].
      intros k Hk. rewrite Hr by lia. rewrite Nat2Z.id. reflexivity.
  Qed.
End Count.

(** Prefix sums of non-negative sizes tile [0, total). *)
Lemma tiling (sz : shell -> Z) (b : list shell) (f : Z) :
  Forall (fun s => 0 <= sz s) b ->
  0 <= f < total sz b ->
  exists k s, nth_error b k = Some s /\
    total sz (firstn k b) <= f < total sz (firstn k b) + sz s /\
    (forall k' s', nth_error b k' = Some s' ->
       total sz (firstn k' b) <= f < total sz (firstn k' b) + sz s' -> k' = k).
Proof.
  revert f. induction b as [|a b IH]; intros f Hnn Hf; [simpl in Hf; lia|].
  inversion Hnn as [|a' b' Ha Hb]; subst a' b'. cbn [total] in Hf.
  assert (Hpre : forall n, 0 <= total sz (firstn n b)).
  { clear - Hb. induction b as [|c b IHb]; intros [|n]; simpl; try lia.
    inversion Hb; subst. specialize (IHb H2 n). lia. }
  destruct (Z.ltb_spec f (sz a)) as [Hlt|Hge].
  - exists O, a. split; [reflexivity|]. split; [simpl; lia|].
    intros [|k'] s' Hs' Hr; [reflexivity|]. exfalso. cbn [firstn total] in Hr. specialize (Hpre k'). lia.
  - destruct (IH (f - sz a) Hb) as [k [s [Hk [Hr Hu]]]]; [lia|].
    exists (S k), s. split; [exact Hk|]. split; [cbn [firstn total]; lia|].
    intros [|k'] s' Hs' Hr'; [cbn [nth_error] in Hs'; injection Hs' as <-; simpl in Hr'; lia|].
    f_equal. apply (Hu k' s' Hs'). cbn [firstn total] in Hr'. lia.
Qed.

(** ** Cartesian components *)
Definition tri (t : Z) : Z := t * (t + 1) / 2.

Lemma tri_succ t : tri (t + 1) = tri t + (t + 1).
Proof.
  unfold tri. replace ((t + 1) * (t + 1 + 1)) with (t * (t + 1) + (t + 1) * 2) by ring.
  apply Z.div_add. lia.
Qed.

Lemma tri_0 : tri 0 = 0. Proof. reflexivity. Qed.

Lemma tri_lt s t : 0 <= s -> s < t -> tri s + s + 1 <= tri t.
Proof.
  intros Hs Hst. replace t with (s + 1 + Z.of_nat (Z.to_nat (t - s - 1))) by lia.
  generalize (Z.to_nat (t - s - 1)). clear Hst t. intros d. induction d as [|d IH].
  - rewrite Z.add_0_r, tri_succ. lia.
  - replace (s + 1 + Z.of_nat (S d)) with (s + 1 + Z.of_nat d + 1) by lia. rewrite tri_succ. lia.
Qed.

Lemma tri_nonneg t : 0 <= t -> 0 <= tri t.
Proof. intros H. unfold tri. apply Z.div_pos; nia. Qed.

Lemma tri_le s t : 0 <= s -> s <= t -> tri s <= tri t.
Proof. intros H H'. destruct (Z.eq_dec s t) as [->|E]; [lia|]. pose proof (tri_lt s t ltac:(lia) ltac:(lia)). lia. Qed.

Lemma len_tri l : (l + 1) * (l + 2) / 2 = tri (l + 1).
Proof. unfold tri. f_equal. ring. Qed.

(** Position of component (l - t, t - z, z) in the enumeration. *)
Definition cpos (p : Z * Z) : Z := let '(t, z) := p in tri t + z.
Definition cbox (l : Z) (p : Z * Z) : Prop := let '(t, z) := p in 0 <= z <= t /\ t <= l.

Lemma cpos_inj l : InjBox cpos (cbox l).
Proof.
  intros [t z] [t' z'] [H1 H2] [H3 H4] E. unfold cpos in E.
  destruct (Z.lt_trichotomy t t') as [C|[C|C]].
  - pose proof (tri_lt t t' ltac:(lia) ltac:(lia)). lia.
  - subst. f_equal. lia.
  - pose proof (tri_lt t' t ltac:(lia) ltac:(lia)). lia.
Qed.

Lemma cpos_bound l p : cbox l p -> 0 <= cpos p < tri (l + 1).
Proof.
  destruct p as [t z]. intros [H1 H2]. unfold cpos.
  pose proof (tri_nonneg t ltac:(lia)). pose proof (tri_le (t + 1) (l + 1) ltac:(lia) ltac:(lia)) as Hm. rewrite tri_succ in Hm. lia.
Qed.

Definition done (t z : Z) (p : Z * Z) : Prop :=
  let '(t', z') := p in t' < t \/ (t' = t /\ z' < z).

Lemma cart_comp_ok nx ny nz l : 0 <= l ->
  tri (l + 1) <= asize nx -> tri (l + 1) <= asize ny -> tri (l + 1) <= asize nz ->
  exists s, CINTcart_comp nx ny nz l = Some s /\ c_inc s = tri (l + 1) /\
    (forall t z, 0 <= z <= t -> t <= l ->
       rd (c_nx s) (tri t + z) = Some (l - t) /\
       rd (c_ny s) (tri t + z) = Some (t - z) /\
       rd (c_nz s) (tri t + z) = Some z) /\
    Frame (fun i => 0 <= i < tri (l + 1)) nx (c_nx s) /\
    Frame (fun i => 0 <= i < tri (l + 1)) ny (c_ny s) /\
    Frame (fun i => 0 <= i < tri (l + 1)) nz (c_nz s).
Proof.
  intros Hl Hx Hy Hz. apply wp_exists.
  set (W := fun i => 0 <= i < tri (l + 1)).
  set (I := fun t z (s : comp_state) => c_inc s = tri t + z /\
     Filled cpos (cbox l) (fun p => l - fst p) (done t z) (c_nx s) /\
     Filled cpos (cbox l) (fun p => fst p - snd p) (done t z) (c_ny s) /\
     Filled cpos (cbox l) (fun p => snd p) (done t z) (c_nz s) /\
     Frame W nx (c_nx s) /\ Frame W ny (c_ny s) /\ Frame W nz (c_nz s)).
  unfold CINTcart_comp.
  apply wp_fordown with (I := fun lx s => I (l - lx) 0 s).
  - lia.
  - rewrite Z.sub_diag. unfold I. cbn [c_inc c_nx c_ny c_nz].
    assert (He : forall sp (a : arr Z), Filled cpos (cbox l) sp (done 0 0) a).
    { intros sp a [t z] Hd [Hb _]. unfold done in Hd. lia. }
    split; [rewrite tri_0; reflexivity|]. auto 7 using Frame_refl.
  - intros lx s Hlx Hs.
    apply wp_fordown with (I := fun ly s => I (l - lx) (l - lx - ly) s).
    + lia.
    + rewrite Z.sub_diag. exact Hs.
    + clear s Hs. intros ly s Hly (Hinc & Fx & Fy & Fz & Wx & Wy & Wz).
      set (t := l - lx) in *. set (z := t - ly) in *.
      assert (Hb : cbox l (t, z)) by (unfold cbox; lia).
      pose proof (cpos_bound l (t, z) Hb) as Hpb.
      assert (Hd : forall p, cbox l p -> done t (z + 1) p -> done t z p \/ p = (t, z)).
      { intros [t' z'] _ Hd. unfold done in *. destruct (Z.eq_dec t' t); destruct (Z.eq_dec z' z);
          try (right; congruence); left; lia. }
      unfold cart_comp_step. rewrite Hinc. change (tri t + z) with (cpos (t, z)).
      replace (t - (ly - 1)) with (z + 1) by (unfold z, t; lia).
      apply wp_bind. eapply (Filled_wr cpos (cbox l)) with (t0 := (t, z)); [apply cpos_inj|exact Hb| | |exact Fx|exact Hd|].
      { simpl. unfold t. lia. } { destruct Wx as [E _]. lia. }
      intros ax Ea Ca Fx'.
      apply wp_bind. eapply (Filled_wr cpos (cbox l)) with (t0 := (t, z)); [apply cpos_inj|exact Hb| | |exact Fy|exact Hd|].
      { simpl. unfold t, z. lia. } { destruct Wy as [E _]. lia. }
      intros ay Eay Cay Fy'.
      apply wp_bind. eapply (Filled_wr cpos (cbox l)) with (t0 := (t, z)); [apply cpos_inj|exact Hb| | |exact Fz|exact Hd|].
      { simpl. unfold t, z. lia. } { destruct Wz as [E _]. lia. }
      intros az Eaz Caz Fz'.
      simpl. unfold I. cbn [c_inc c_nx c_ny c_nz].
      split; [unfold cpos; lia|]. split; [exact Fx'|]. split; [exact Fy'|]. split; [exact Fz'|].
      split; [eapply Frame_step; eauto|]. split; eapply Frame_step; eauto.
    + clear s Hs. intros s (Hinc & Fx & Fy & Fz & HW). 
      replace (l - (lx - 1)) with (l - lx + 1) by lia.
      replace (l - lx - (0 - 1)) with (l - lx + 1) in * by lia.
      assert (Hd : forall p, cbox l p -> done (l - lx + 1) 0 p -> done (l - lx) (l - lx + 1) p).
      { intros [t' z'] [Hb1 Hb2] Hd. unfold done in *. lia. }
      split; [rewrite Hinc, tri_succ; lia|].
      split; [eapply Filled_mono; eauto|]. split; [eapply Filled_mono; eauto|].
      split; [eapply Filled_mono; eauto|]. exact HW.
  - replace (l - (0 - 1)) with (l + 1) by lia.
    intros s (Hinc & Fx & Fy & Fz & Wx & Wy & Wz).
    split; [lia|]. split; [|auto].
    intros t z Hz1 Ht.
    assert (Hb : cbox l (t, z)) by (unfold cbox; lia).
    assert (Hd : done (l + 1) 0 (t, z)) by (unfold done; lia).
    split; [exact (Fx (t, z) Hd Hb)|]. split; [exact (Fy (t, z) Hd Hb)|exact (Fz (t, z) Hd Hb)].
Qed.

(** *** The component list *)
Lemma zseq_In n z : In z (zseq n) <-> 0 <= z < n.
Proof.
  unfold zseq. rewrite in_map_iff. split.
  - intros [k [<- Hk]]. apply in_seq in Hk. lia.
  - intros H. exists (Z.to_nat z). split; [lia|]. apply in_seq. lia.
Qed.

Lemma zseq_succ n : 0 <= n -> zseq (n + 1) = zseq n ++ [n].
Proof.
  intros H. unfold zseq. replace (Z.to_nat (n + 1)) with (S (Z.to_nat n)) by lia.
  rewrite seq_S, map_app. simpl. rewrite Z2Nat.id by lia. reflexivity.
Qed.

Lemma zseq_length n : length (zseq n) = Z.to_nat n.
Proof. unfold zseq. rewrite map_length, seq_length. reflexivity. Qed.

Lemma zseq_nth n k : (k < Z.to_nat n)%nat -> nth_error (zseq n) k = Some (Z.of_nat k).
Proof.
  intros H. unfold zseq. rewrite nth_error_map.
  rewrite (nth_error_nth' (seq 0 (Z.to_nat n)) 0%nat) by (rewrite seq_length; lia).
  rewrite seq_nth by lia. reflexivity.
Qed.

Definition cart_prefix (l n : Z) : list triple :=
  flat_map (fun t => map (fun lz => (l - t, t - lz, lz)) (zseq (t + 1))) (zseq n).

Lemma cart_prefix_succ l n : 0 <= n ->
  cart_prefix l (n + 1) = cart_prefix l n ++ map (fun lz => (l - n, n - lz, lz)) (zseq (n + 1)).
Proof.
  intros H. unfold cart_prefix. rewrite (zseq_succ n H), flat_map_app.
  cbn [flat_map]. rewrite app_nil_r, (zseq_succ n H). reflexivity.
Qed.

Lemma cart_prefix_length l n : 0 <= n -> Z.of_nat (length (cart_prefix l n)) = tri n.
Proof.
  intros H. pattern n. apply natlike_ind; [reflexivity| |exact H].
  intros x Hx IH. unfold Z.succ. rewrite cart_prefix_succ by exact Hx.
  rewrite app_length, map_length, zseq_length, tri_succ. lia.
Qed.

Lemma cart_prefix_nth l n t z : 0 <= n -> 0 <= z <= t -> t < n ->
  nth_error (cart_prefix l n) (Z.to_nat (tri t + z)) = Some (l - t, t - z, z).
Proof.
  intros H Hz Ht. revert Ht. pattern n. apply natlike_ind; [lia| |exact H].
  intros x Hx IH Ht. unfold Z.succ in *. rewrite cart_prefix_succ by exact Hx.
  pose proof (cart_prefix_length l x Hx) as HL. pose proof (tri_nonneg t ltac:(lia)).
  destruct (Z.eq_dec t x) as [->|Hne].
  - rewrite nth_error_app2 by lia.
    replace (Z.to_nat (tri x + z) - length (cart_prefix l x))%nat with (Z.to_nat z) by lia.
    rewrite nth_error_map, zseq_nth by lia. simpl. rewrite Z2Nat.id by lia. reflexivity.
  - pose proof (tri_lt t x ltac:(lia) ltac:(lia)). rewrite nth_error_app1 by lia. apply IH. lia.
Qed.

Lemma cart_list_length l : 0 <= l -> Z.of_nat (length (cart_list l)) = (l + 1) * (l + 2) / 2.
Proof. intros H. rewrite len_tri. apply cart_prefix_length. lia. Qed.

(** Every position is a [tri t + z]. *)
Lemma tri_decode n k : 0 <= n -> 0 <= k < tri n -> exists t z, 0 <= z <= t /\ t < n /\ k = tri t + z.
Proof.
  intros H. revert k. pattern n. apply natlike_ind; [|clear n H|exact H].
  - intros k Hk. rewrite tri_0 in Hk. lia.
  - intros n Hn IH k Hk. unfold Z.succ in *. rewrite tri_succ in Hk.
    destruct (Z.ltb_spec k (tri n)) as [C|C].
    + destruct (IH k ltac:(lia)) as (t & z & H1 & H2 & H3). exists t, z. lia.
    + exists n, (k - tri n). lia.
Qed.

Lemma cart_list_In l t : 0 <= l -> (In t (cart_list l) <-> nonneg t /\ degree t = l).
Proof.
  intros Hl. unfold cart_list. rewrite in_flat_map. destruct t as [[x y] z]. unfold nonneg, degree. split.
  - intros [s [Hs Ht]]. apply zseq_In in Hs. apply in_map_iff in Ht.
    destruct Ht as [w [E Hw]]. apply zseq_In in Hw. injection E as <- <- <-. lia.
  - intros [H1 H2]. exists (y + z). split; [apply zseq_In; lia|].
    apply in_map_iff. exists z. split; [|apply zseq_In; lia]. repeat f_equal; lia.
Qed.

Lemma map_sorted {A B} (R : A -> A -> Prop) (R' : B -> B -> Prop) (f : A -> B) l :
  StronglySorted R l -> (forall x y, In x l -> In y l -> R x y -> R' (f x) (f y)) ->
  StronglySorted R' (map f l).
Proof.
  induction 1 as [|a l HS IH HF]; intros Hf; simpl; constructor.
  - apply IH. intros x y Hx Hy. apply Hf; right; assumption.
  - apply Forall_forall. intros y Hy. apply in_map_iff in Hy. destruct Hy as [x [<- Hx]].
    apply Hf; [left; reflexivity|right; exact Hx|]. rewrite Forall_forall in HF. apply HF. exact Hx.
Qed.

Lemma seq_sorted n k : StronglySorted lt (seq k n).
Proof.
  revert k. induction n as [|n IH]; intros k; simpl; constructor; [apply IH|].
  apply Forall_forall. intros x Hx. apply in_seq in Hx. lia.
Qed.

Lemma zseq_sorted n : StronglySorted Z.lt (zseq n).
Proof. unfold zseq. eapply map_sorted; [apply seq_sorted|]. intros. lia. Qed.

Lemma app_sorted {A} (R : A -> A -> Prop) l1 l2 :
  StronglySorted R l1 -> StronglySorted R l2 ->
  (forall x y, In x l1 -> In y l2 -> R x y) -> StronglySorted R (l1 ++ l2).
Proof.
  induction 1 as [|a l HS IH HF]; intros H2 H; simpl; [exact H2|]. constructor.
  - apply IH; [exact H2|]. intros x y Hx Hy. apply H; [right; exact Hx|exact Hy].
  - apply Forall_app. split; [exact HF|]. apply Forall_forall. intros y Hy. apply H; [left; reflexivity|exact Hy].
Qed.

Lemma cart_list_sorted l : 0 <= l -> StronglySorted lexgt (cart_list l).
Proof.
  intros Hl. change (cart_list l) with (cart_prefix l (l + 1)).
  assert (H : forall n, 0 <= n -> StronglySorted lexgt (cart_prefix l n) /\
     (forall t, In t (cart_prefix l n) -> let '(x, _, _) := t in l - n < x)).
  { intros n Hn. pattern n. apply natlike_ind; [|clear n Hn|exact Hn].
    - split; [constructor|]. intros t [].
    - intros n Hn [IH1 IH2]. unfold Z.succ. rewrite cart_prefix_succ by exact Hn. split.
      + apply app_sorted; [exact IH1| |].
        * eapply map_sorted; [apply zseq_sorted|]. intros x y _ _ Hxy. unfold lexgt. lia.
        * intros [[x y] z] [[x' y'] z'] H1 H2. apply IH2 in H1. apply in_map_iff in H2.
          destruct H2 as [w [E _]]. injection E as <- <- <-. unfold lexgt. lia.
      + intros [[x y] z] Hin. apply in_app_or in Hin. destruct Hin as [Hin|Hin].
        * apply IH2 in Hin. lia.
        * apply in_map_iff in Hin. destruct Hin as [w [E _]]. injection E as <- <- <-. lia. }
  apply H. lia.
Qed.

Lemma sorted_NoDup {A} (R : A -> A -> Prop) (l : list A) :
  (forall x, ~ R x x) -> StronglySorted R l -> NoDup l.
Proof.
  intros Hir. induction 1 as [|a l HS IH HF]; constructor; [|exact IH].
  intros Hin. rewrite Forall_forall in HF. apply (Hir a). apply HF. exact Hin.
Qed.

Lemma cart_list_NoDup l : 0 <= l -> NoDup (cart_list l).
Proof.
  intros Hl. apply (sorted_NoDup lexgt); [|apply cart_list_sorted; exact Hl].
  intros [[x y] z]. unfold lexgt. lia.
Qed.

(** The run stores [cart_list l]. *)
Lemma cart_comp_list nx ny nz l : 0 <= l ->
  (l + 1) * (l + 2) / 2 <= asize nx -> (l + 1) * (l + 2) / 2 <= asize ny ->
  (l + 1) * (l + 2) / 2 <= asize nz ->
  exists s, CINTcart_comp nx ny nz l = Some s /\ c_inc s = (l + 1) * (l + 2) / 2 /\
    (forall k t, nth_error (cart_list l) k = Some t ->
       rd (c_nx s) (Z.of_nat k) = Some (fst (fst t)) /\
       rd (c_ny s) (Z.of_nat k) = Some (snd (fst t)) /\
       rd (c_nz s) (Z.of_nat k) = Some (snd t)) /\
    Frame (fun i => 0 <= i < (l + 1) * (l + 2) / 2) nx (c_nx s) /\
    Frame (fun i => 0 <= i < (l + 1) * (l + 2) / 2) ny (c_ny s) /\
    Frame (fun i => 0 <= i < (l + 1) * (l + 2) / 2) nz (c_nz s).
Proof.
  rewrite len_tri. intros Hl Hx Hy Hz.
  destruct (cart_comp_ok nx ny nz l Hl Hx Hy Hz) as (s & Hs & Hi & Hc & HW).
  exists s. split; [exact Hs|]. split; [exact Hi|]. split; [|exact HW].
  intros k t Hk.
  assert (Hlt : (k < length (cart_list l))%nat) by (apply nth_error_Some; congruence).
  pose proof (cart_list_length l Hl) as HL. rewrite len_tri in HL.
  destruct (tri_decode (l + 1) (Z.of_nat k)) as (u & z & H1 & H2 & H3); [lia|lia|].
  pose proof (cart_prefix_nth l (l + 1) u z ltac:(lia) H1 H2) as Hn.
  rewrite <- H3, Nat2Z.id in Hn. change (cart_prefix l (l + 1)) with (cart_list l) in Hn.
  rewrite Hn in Hk. injection Hk as <-. simpl. rewrite H3. apply Hc; lia.
Qed.

(** ** Packaged statements *)
Lemma shell_sizes (bas : arr Z) (b : list shell) (k : nat) (s : shell) :
  stores bas b -> nth_error b k = Some s ->
  (0 <= sh_l s -> CINTcgto_cart (Z.of_nat k) bas = Some (cart_fns s * sh_nctr s)) /\
  CINTcgto_spheric (Z.of_nat k) bas = Some (sph_fns s * sh_nctr s) /\
  CINTlen_spinor (Z.of_nat k) bas = Some (spinor_fns s) /\
  CINTcgto_spinor (Z.of_nat k) bas = Some (spinor_fns s * sh_nctr s).
Proof.
  intros Hst Hk. rewrite <- (Nat2Z.id k) in Hk.
  split; [intros Hl; apply (cgto_cart_ok bas b Hst); auto; lia|].
  split; [apply (cgto_sph_ok bas b Hst); auto; lia|].
  split; [apply (len_spinor_ok bas b Hst); auto; lia|apply (cgto_spinor_ok bas b Hst); auto; lia].
Qed.

Lemma totals (bas : arr Z) (b : list shell) :
  stores bas b ->
  (Forall (fun s => 0 <= sh_l s) b ->
   CINTtot_cgto_cart bas (Z.of_nat (length b)) = Some (total (fun s => cart_fns s * sh_nctr s) b)) /\
  CINTtot_cgto_spheric bas (Z.of_nat (length b)) = Some (total (fun s => sph_fns s * sh_nctr s) b) /\
  CINTtot_cgto_spinor bas (Z.of_nat (length b)) = Some (total (fun s => spinor_fns s * sh_nctr s) b) /\
  CINTtot_pgto_spheric bas (Z.of_nat (length b)) = Some (total (fun s => sph_fns s * sh_nprim s) b) /\
  CINTtot_pgto_spinor bas (Z.of_nat (length b)) = Some (total (fun s => spinor_fns s * sh_nprim s) b).
Proof.
  intros Hst. split; [apply (tot_cart_ok bas b Hst)|].
  split; [apply (tot_sph_ok bas b Hst)|]. split; [apply (tot_spinor_ok bas b Hst)|].
  split; [apply (tot_psph_ok bas b Hst)|apply (tot_pspinor_ok bas b Hst)].
Qed.

Lemma spinor_halves (l np nc : Z) (p q : positive) :
  spinor_fns (mkshell l np nc 0) =
  spinor_fns (mkshell l np nc (Zneg p)) + spinor_fns (mkshell l np nc (Zpos q)).
Proof. unfold spinor_fns. cbn [sh_kappa sh_l]. ring. Qed.

Lemma offsets (bas ao : arr Z) (b : list shell) :
  stores bas b -> b <> [] -> Z.of_nat (length b) <= asize ao ->
  let ok f sz := exists ao', shells_cgto_offset f ao bas (Z.of_nat (length b)) = Some ao' /\
      asize ao' = asize ao /\
      (forall k, (k < length b)%nat -> rd ao' (Z.of_nat k) = Some (total sz (firstn k b))) /\
      (forall i, ~ (0 <= i < Z.of_nat (length b)) -> acell ao' i = acell ao i) in
  (Forall (fun s => 0 <= sh_l s) b -> ok CINTcgto_cart (fun s => cart_fns s * sh_nctr s)) /\
  ok CINTcgto_spheric (fun s => sph_fns s * sh_nctr s) /\
  ok CINTcgto_spinor (fun s => spinor_fns s * sh_nctr s).
Proof.
  intros Hst Hne Hsz ok. split; [|split].
  - intros Hl. apply (offset_ok bas b); auto. intros i s Hi Hs.
    apply (cgto_cart_ok bas b Hst); auto. rewrite Forall_forall in Hl. apply Hl.
    eapply nth_error_In. exact Hs.
  - apply (offset_ok bas b); auto. intros i s Hi Hs. apply (cgto_sph_ok bas b Hst); auto.
  - apply (offset_ok bas b); auto. intros i s Hi Hs. apply (cgto_spinor_ok bas b Hst); auto.
Qed.

Lemma offsets_empty_refuted :
  exists (bas ao : arr Z), stores bas [] /\ asize ao = 0 /\
    CINTshells_cart_offset ao bas 0 = None.
Proof.
  exists (uninit 0), (uninit 0). split; [|split; reflexivity].
  intros [|i] s H; discriminate.
Qed.

Lemma cart_list_complete (l : Z) : 0 <= l ->
  (forall t, In t (cart_list l) <-> nonneg t /\ degree t = l) /\
  NoDup (cart_list l) /\ StronglySorted lexgt (cart_list l) /\
  Z.of_nat (length (cart_list l)) = CINTlen_cart l.
Proof.
  intros Hl. split; [intros t; apply cart_list_In; exact Hl|].
  split; [apply cart_list_NoDup; exact Hl|]. split; [apply cart_list_sorted; exact Hl|].
  rewrite CINTlen_cart_ok by exact Hl. apply cart_list_length. exact Hl.
Qed.

(** Concrete basis: a contracted s shell with kappa < 0, a p shell with kappa = 0
    and a d shell with kappa > 0. *)
Definition example_basis : list shell :=
  [mkshell 0 3 2 (-1); mkshell 1 2 1 0; mkshell 2 1 3 2].
Definition example_bas : arr Z :=
  of_fun 24 (fun i => nth (Z.to_nat i)
    [0;0;3;2;-1;20;23;0;  0;1;2;1;0;29;31;0;  1;2;1;3;2;33;34;0] 0).

Lemma example_basis_stored0 : stores example_bas example_basis.
Proof.
  intros [|[|[|i]]] s H; simpl in H; try discriminate;
    try (injection H as <-; repeat split; reflexivity).
  destruct i; discriminate.
Qed.
Lemma example_basis_stored :
  exists bas, stores bas example_basis /\ length example_basis = 3%nat.
Proof. exists example_bas. split; [exact example_basis_stored0|reflexivity]. Qed.

Lemma example_offsets : exists bas ao ao',
  stores bas example_basis /\ CINTshells_spinor_offset ao bas 3 = Some ao' /\
  rd ao' 0 = Some 0 /\ rd ao' 1 = Some 4 /\ rd ao' 2 = Some 10.
Proof.
  exists example_bas, (uninit 3). eexists. split; [exact example_basis_stored0|].
  split; [reflexivity|]. repeat split; reflexivity.
Qed.

Lemma example_cart_list :
  cart_list 2 = [(2,0,0); (1,1,0); (1,0,1); (0,2,0); (0,1,1); (0,0,2)].
Proof. reflexivity. Qed.
