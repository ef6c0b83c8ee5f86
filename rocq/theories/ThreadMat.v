(** ThreadMat.v — threads assembling the matrix of a one-electron integral over a basis. *)
From Verif Require Import Base BasModel EnvModel OutModel OutSpec OutRules OutProof OutSetup OutTab ThreadModel ThreadProof ThreadFinal.

Lemma drivers_wo {F} (zero : F) add mul coef c sz : driver zero add mul coef c -> WO sz c.
Proof. intros []; [apply wo_1e|apply wo_2c2e|apply wo_3c|apply wo_2e|apply wo_grids]. Qed.

Lemma threads_exist {F} (zero : F) add mul coef sz (threads : list (list (bcall (F := F)))) :
  (forall b, In b (concat threads) -> 0 <= c_off (b_call b) /\ driver zero add mul coef (c_fun (b_call b))) ->
  Forall (fills sz) (concat threads) ->
  exists trs, Forall2 (thread_stores sz) (map (map b_call) threads) trs.
Proof.
  induction threads as [|bs threads IH]; intros Hd Hf; [exists []; constructor|].
  cbn [concat] in *. apply Forall_app in Hf as [Hf1 Hf2].
  destruct IH as (trs & IH); [intros b Hb; apply Hd; apply in_app_iff; auto|exact Hf2|].
  assert (T : exists t, thread_stores sz (map b_call bs) t).
  { assert (Hd1 : forall b, In b bs -> 0 <= c_off (b_call b) /\ driver zero add mul coef (c_fun (b_call b))).
    { intros b Hb. apply Hd. apply in_app_iff. auto. }
    clear - Hd1 Hf1. induction bs as [|b bs IH]; [exists []; constructor|].
    inversion Hf1 as [|? ? Hb Hbs]; subst. destruct IH as (t & IH); [exact Hbs|intros; apply Hd1; right; assumption|].
    destruct (Hd1 b (or_introl eq_refl)) as [Ho Hdr].
    destruct (wo_call_stores sz b Ho (drivers_wo _ _ _ _ _ _ Hdr) Hb) as (t1 & H1).
    exists (t1 ++ t). constructor; assumption. }
  destruct T as (t & T). exists (t :: trs). constructor; assumption.
Qed.

Section Matrix.
  Context {F : Type} (zero : F) (add mul : F -> F -> F) (coef : Z -> F).
  (** [nbas] shells: angular momentum, number of contractions, first row *)
  Variables (nbas : Z) (l nctr loc : Z -> Z) (ng : ngT).
  Hypothesis Hl : forall i, 0 <= i < nbas -> 0 <= l i <= 15 /\ 0 <= nctr i.
  Definition rows (i : Z) : Z := CINTlen_cart (l i) * nctr i.
  Hypothesis Hloc0 : loc 0 = 0.
  Hypothesis Hloc : forall i, 0 <= i < nbas -> loc (i + 1) = loc i + rows i.
  Notation nao := (loc nbas).
  (** per pair: its environment, its batch and the batch's values *)
  Variables (e : Z -> Z -> envs) (gctr : Z -> Z -> arr F) (x : Z -> Z -> Z -> F).
  Hypothesis He : forall i j, 0 <= i < nbas -> 0 <= j < nbas -> env1 ng (l i) (l j) (nctr i) (nctr j) (e i j).
  Hypothesis Hg : forall i j, 0 <= i < nbas -> 0 <= j < nbas ->
    reads (gctr i j) (ncompA ng * (nf (e i j) * nctr i * nctr j)) (x i j).

  Definition pair_call (p : Z * Z) : call (F := F) :=
    let '(i, j) := p in
    mkcall (loc i + nao * loc j)
      (fun out => CINT1e_drv_tail zero add mul coef CartK true (Some (arr4 nao nao 1 1)) out (gctr i j) (e i j)).
  Definition pair_block (p : Z * Z) : bcall (F := F) :=
    let '(i, j) := p in
    mkb (pair_call p) (ncompA ng) nao nao 1 1 (rows i) (rows j) 1 1
      (fun n I J _ _ => cart2 (x i j) (CINTlen_cart (l i)) (CINTlen_cart (l j)) (nctr i) (nctr j) n I J).

  Lemma rows_nonneg i : 0 <= i < nbas -> 0 <= rows i.
  Proof.
    intros Hi. destruct (Hl i Hi). unfold rows. apply Z.mul_nonneg_nonneg; [|lia].
    pose proof (OutProof.len_cart_pos (l i)). lia.
  Qed.
  Lemma loc_mono i j : 0 <= i <= j -> j <= nbas -> loc i <= loc j.
  Proof.
    intros Hij Hj. replace j with (i + (j - i)) by lia. assert (H : i + (j - i) <= nbas) by lia. revert H.
    pattern (j - i). apply natlike_ind; [| |lia].
    - intros _. rewrite Z.add_0_r. lia.
    - intros d Hd IH Hb. specialize (IH ltac:(lia)). replace (i + Z.succ d) with (i + d + 1) by lia.
      rewrite Hloc by lia. pose proof (rows_nonneg (i + d) ltac:(lia)). lia.
  Qed.
  Lemma loc_range i : 0 <= i < nbas -> 0 <= loc i /\ loc i + rows i <= nao.
  Proof.
    intros Hi. rewrite <- Hloc by lia. split; [rewrite <- Hloc0|]; apply loc_mono; lia.
  Qed.

  Lemma pair_fills sz i j : 0 <= i < nbas -> 0 <= j < nbas -> ncompA ng * (nao * nao) <= sz ->
    fills sz (pair_block (i, j)).
  Proof.
    intros Hi Hj Hs out Ho. cbn [pair_block b_call b_nc b_n1 b_n2 b_n3 b_n4 b_m1 b_m2 b_m3 b_m4 b_val pair_call c_off c_fun] in *.
    destruct (Hl i Hi), (Hl j Hj), (loc_range i Hi), (loc_range j Hj).
    eapply (out1_cart) with (hv := true) (x := x i j); eauto;
      unfold rows in *; try lia.
    - intros k Hk. destruct k as [|[|k]]; [reflexivity|reflexivity|lia].
    - intros D. discriminate.
    - intros n i1 i2 i3 i4 Hn ? ? ? ?. rewrite Ho. replace i3 with 0 by lia. replace i4 with 0 by lia.
      unfold place. replace ((((n * 1 + 0) * 1 + 0) * nao + i2) * nao + i1) with (n * (nao * nao) + (i2 * nao + i1)) by ring.
      set (N := nao) in *. clearbody N.
      assert (A1 : loc j + i2 <= N - 1) by lia. assert (A2 : loc i + i1 <= N - 1) by lia.
      assert (A3 : (loc j + i2) * N <= (N - 1) * N) by (apply Z.mul_le_mono_nonneg_r; lia).
      assert (A4 : n * (N * N) <= (ncompA ng - 1) * (N * N)) by (apply Z.mul_le_mono_nonneg_r; [apply Z.mul_nonneg_nonneg|]; lia).
      assert (A5 : (ncompA ng - 1) * (N * N) = ncompA ng * (N * N) - N * N) by ring.
      assert (A6 : (N - 1) * N = N * N - N) by ring.
      assert (A7 : (loc j + i2) * N = N * loc j + i2 * N) by ring. lia.
  Qed.

  Lemma pairs_apart i j i' j' : 0 <= i < nbas -> 0 <= j < nbas -> 0 <= i' < nbas -> 0 <= j' < nbas ->
    (i, j) <> (i', j') -> blocks_apart (pair_block (i, j)) (pair_block (i', j')).
  Proof.
    intros Hi Hj Hi' Hj' D y [(n & a & b & c & d & (Hn & Ha & Hb & Hc & Hd) & E) (n' & a' & b' & c' & d' & (Hn' & Ha' & Hb' & Hc' & Hd') & E')].
    cbn [pair_block b_call b_nc b_n1 b_n2 b_n3 b_n4 b_m1 b_m2 b_m3 b_m4 b_val pair_call c_off c_fun at_] in *.
    unfold at_ in E, E'. cbn [pair_block b_call b_nc b_n1 b_n2 b_n3 b_n4 b_m1 b_m2 b_m3 b_m4 b_val pair_call c_off c_fun at_] in *.
    destruct (loc_range i Hi), (loc_range j Hj), (loc_range i' Hi'), (loc_range j' Hj').
    assert (S : forall u v, 0 <= u < nbas -> 0 <= v < nbas -> u < v -> loc u + rows u <= loc v).
    { intros u v Hu Hv Huv. rewrite <- Hloc by lia. apply loc_mono; lia. }
    assert (P : forall n i j a b, loc i + nao * loc j + place nao nao 1 1 n a b 0 0 = place nao nao 1 1 n (loc i + a) (loc j + b) 0 0).
    { intros. unfold place. ring. }
    replace c with 0 in E by lia. replace d with 0 in E by lia. replace c' with 0 in E' by lia. replace d' with 0 in E' by lia.
    rewrite P in E, E'. rewrite E in E'.
    apply OutSetup.place_inj in E'; [|lia|lia|lia|lia|lia|lia|lia|lia].
    destruct E' as (_ & E1 & E2 & _ & _).
    assert (Ei : i = i').
    { destruct (Z.lt_trichotomy i i') as [L|[L|L]]; [|exact L|]; [pose proof (S i i' Hi Hi' L)|pose proof (S i' i Hi' Hi L)]; lia. }
    assert (Ej : j = j').
    { destruct (Z.lt_trichotomy j j') as [L|[L|L]]; [|exact L|]; [pose proof (S j j' Hj Hj' L)|pose proof (S j' j Hj' Hj L)]; lia. }
    congruence.
  Qed.

  Lemma matrix_ok sz (threads : list (list (Z * Z))) trs (a : arr F) :
    (forall i j, In (i, j) (concat threads) -> 0 <= i < nbas /\ 0 <= j < nbas) -> NoDup (concat threads) ->
    asize a = sz -> ncompA ng * (nao * nao) <= sz ->
    (exists trs, Forall2 (thread_stores sz) (map (map pair_call) threads) trs) /\
    (Forall2 (thread_stores sz) (map (map pair_call) threads) trs ->
    (forall a' rest, steps (a, trs) (a', rest) -> finished rest \/ exists next, step (a', rest) next) /\
    (forall a' rest, steps (a, trs) (a', rest) -> finished rest ->
      forall i j, In (i, j) (concat threads) -> forall n I J, 0 <= n < ncompA ng -> 0 <= I < rows i -> 0 <= J < rows j ->
        rd a' ((n * nao + loc j + J) * nao + loc i + I) =
          Some (cart2 (x i j) (CINTlen_cart (l i)) (CINTlen_cart (l j)) (nctr i) (nctr j) n I J)) /\
    (forall a' rest, steps (a, trs) (a', rest) -> finished rest ->
      forall y, (forall i j n I J, In (i, j) (concat threads) -> 0 <= n < ncompA ng -> 0 <= I < rows i -> 0 <= J < rows j ->
        y <> (n * nao + loc j + J) * nao + loc i + I) -> acell a' y = acell a y)).
  Proof.
    intros Hin Hnd Ha Hsz.
    set (bs := map (map pair_block) threads).
    assert (Ebs : map (map b_call) bs = map (map pair_call) threads).
    { unfold bs. rewrite map_map. apply map_ext. intros t. rewrite map_map. apply map_ext. intros [i j]. reflexivity. }
    assert (Ecb : concat bs = map pair_block (concat threads)) by (unfold bs; apply eq_sym, concat_map).
    assert (Hf : Forall (fills sz) (concat bs)).
    { rewrite Ecb. apply Forall_forall. intros b Hb. apply in_map_iff in Hb as ([i j] & <- & Hp).
      destruct (Hin i j Hp). apply pair_fills; assumption. }
    assert (Hp : ForallOrdPairs blocks_apart (concat bs)).
    { rewrite Ecb. clear - Hin Hnd Hl Hloc0 Hloc He Hg. induction (concat threads) as [|[i j] ps IH]; [constructor|].
      inversion Hnd as [|? ? Hni Hnd']; subst. cbn [map]. constructor.
      - apply Forall_forall. intros b Hb. apply in_map_iff in Hb as ([i' j'] & <- & Hp).
        destruct (Hin i j (or_introl eq_refl)), (Hin i' j' (or_intror Hp)).
        apply pairs_apart; auto. intros E. apply Hni. rewrite E. exact Hp.
      - apply IH; [intros; apply Hin; right; assumption|assumption]. }
    assert (Hd : forall b, In b (concat bs) -> 0 <= c_off (b_call b) /\ driver zero add mul coef (c_fun (b_call b))).
    { rewrite Ecb. intros b Hb. apply in_map_iff in Hb as ([i j] & <- & Hpp). destruct (Hin i j Hpp) as [Hi Hj].
      cbn [pair_block b_call pair_call c_off c_fun]. split.
      - destruct (loc_range i Hi), (loc_range j Hj). pose proof (rows_nonneg i Hi).
        pose proof (Z.mul_nonneg_nonneg nao (loc j)). lia.
      - apply drv_1e. }
    split.
    { rewrite <- Ebs. exact (threads_exist zero add mul coef sz bs Hd Hf). }
    intros Ht. rewrite <- Ebs in Ht.
    destruct (blocks_interleave sz bs trs a Ha Ht Hf Hp) as (P1 & P2 & _).
    split; [exact P1|]. split.
    - intros a' rest Hst Hfin i j Hij n I J Hn HI HJ.
      destruct (P2 a' rest Hst Hfin) as (_ & Q & _).
      specialize (Q (pair_block (i, j))). rewrite Ecb in Q. specialize (Q (in_map _ _ _ Hij) n I J 0 0).
      unfold at_ in Q. cbn [pair_block b_call b_nc b_n1 b_n2 b_n3 b_n4 b_m1 b_m2 b_m3 b_m4 b_val pair_call c_off c_fun at_] in Q.
      rewrite <- Q.
      + f_equal. unfold place. ring.
      + unfold elem. cbn [pair_block b_nc b_m1 b_m2 b_m3 b_m4]. lia.
    - intros a' rest Hst Hfin y Hy. destruct (P2 a' rest Hst Hfin) as (_ & _ & Q). apply Q.
      rewrite Ecb. intros b Hb (n & i1 & i2 & i3 & i4 & (Hn & H1 & H2 & H3 & H4) & E).
      apply in_map_iff in Hb as ([i j] & <- & Hpp).
      unfold at_ in E. cbn [pair_block b_call b_nc b_n1 b_n2 b_n3 b_n4 b_m1 b_m2 b_m3 b_m4 b_val pair_call c_off c_fun at_] in *.
      apply (Hy i j n i1 i2 Hpp Hn H1 H2). rewrite E. unfold place. replace i3 with 0 by lia. replace i4 with 0 by lia. ring.
  Qed.
End Matrix.
