(** OptFinal.v — optimizer results in the form used by PropsOpt.v, and counterexamples. *)
From Coq Require Import Reals Lra Permutation.
From Verif Require OutProof.
From Verif Require Import Base BasSpec EnvModel IdxModel IdxSpec IdxProof CtrModel CtrSpec CtrProof
  OutModel OptModel OptSpec OptProof OptIdx OptHeap OptPair.

(** the table a call without optimizer computes for shells of angular momenta [l1..l4]
    and contraction counts [c1..c4]; [om]: omega is negative *)
Definition fresh_index (k : kind) (om : bool) (ng : ngT) (l1 l2 l3 l4 c1 c2 c3 c4 : Z) (f0 : arr Z) : option (arr Z) :=
  match k with
  | K1e => CINTg1e_index_xyz (init_int1e ng l1 l2 c1 c2) f0
  | Kgrids => CINTg1e_index_xyz (init_int1e_grids om ng l1 l2 c1 c2) f0
  | K2c2e => CINTg1e_index_xyz (init_int2c2e om ng l1 l2 c1 c2) f0
  | K3c2e => CINTg2e_index_xyz (init_int3c2e om ng l1 l2 l3 c1 c2 c3) f0
  | K3c1e => CINTg3c1e_index_xyz (init_int3c1e ng l1 l2 l3 c1 c2 c3) f0
  | K2e => CINTg2e_index_xyz (init_int2e om ng l1 l2 l3 l4 c1 c2 c3 c4) f0
  | Kstg => CINTg2e_index_xyz (init_int2e_yp ng l1 l2 l3 l4 c1 c2 c3 c4) f0
  end.

Definition n_centres (k : kind) : Z := match k with K1e | Kgrids | K2c2e => 2 | K3c2e | K3c1e => 3 | K2e | Kstg => 4 end.
(** angular momenta up to which tables are kept *)
Definition l_kept (k : kind) : Z := match k with K1e | Kgrids | K2c2e => 15 | K3c2e | K3c1e => 12 | K2e | Kstg => 6 end.
(** position of the pointer in the table: mixed radix 16 *)
Definition table_pos (k : kind) (l1 l2 l3 l4 : Z) : Z :=
  match n_centres k with 2 => 16 * l1 + l2 | 3 => 16 * (16 * l1 + l2) + l3 | _ => 16 * (16 * (16 * l1 + l2) + l3) + l4 end.
Definition n_cart (k : kind) (l1 l2 l3 l4 : Z) : Z :=
  let len l := (l + 1) * (l + 2) / 2 in
  match n_centres k with 2 => len l1 * len l2 | 3 => len l1 * len l2 * len l3 | _ => len l1 * len l2 * len l3 * len l4 end.

Lemma index_cached {F} (O : fops F) k ng (B : basis F) ev :
  good_basis B -> env_is (b_env B) ev -> ng_ok ng ->
  exists t b, gen_idx O k ng (b_atm B) (b_bas B) (b_nbas B) (b_env B) = Some (t, b) /\
  exists m, 0 <= m /\ (forall i l, 0 <= i < b_nbas B -> rd (b_bas B) (8 * i + 1) = Some l -> l <= m) /\
  (forall l1 l2 l3 l4 c1 c2 c3 c4 (om : bool) f0,
    0 <= l1 <= Z.min m (l_kept k) -> 0 <= l2 <= Z.min m (l_kept k) ->
    (if n_centres k <? 3 then l3 = 0 else 0 <= l3 <= Z.min m (l_kept k)) ->
    (if n_centres k <? 4 then l4 = 0 else 0 <= l4 <= Z.min m (l_kept k)) ->
    om = flt O (ev 8) (OptModel.f0 O) -> 3 * n_cart k l1 l2 l3 l4 <= asize f0 ->
    exists o f, rd t (table_pos k l1 l2 l3 l4) = Some (Off o) /\
      fresh_index k om ng l1 l2 l3 l4 c1 c2 c3 c4 f0 = Some f /\
      forall x, 0 <= x < 3 * n_cart k l1 l2 l3 l4 -> exists v, rd f x = Some v /\ rd b (o + x) = Some v).
Proof.
  intros (Hn & Hat & V & ev' & HV & HS & HE') HE Hng.
  assert (Hat' : exists c, rd (b_atm B) 1 = Some c) by exact Hat.
  pose proof (gen_idx_ok O (b_atm B) (b_bas B) (b_nbas B) (b_env B) V ev Hn HV HS HE Hat k ng Hng) as H.
  apply wp_exists in H. destruct H as ([t b] & E & H0 & m & (Hm & Hmax & _) & (Hsz & Hq & Hnull)).
  exists t, b. split; [exact E|]. exists m. split; [lia|]. split.
  { intros i l Hi Hl. destruct (HV i Hi) as (_ & Hl' & _). rewrite Hl' in Hl. injection Hl as <-. apply Hmax. exact Hi. }
  intros l1 l2 l3 l4 c1 c2 c3 c4 om f0 H1 H2 H3 H4 -> Hf.
  assert (Q : all_quads k m (l1, l2, l3, l4)).
  { clear - H1 H2 H3 H4. unfold all_quads, ANG_MAX in *. destruct k; cbn -[Z.min] in *; unfold ANG_MAX; repeat split; lia. }
  destruct (Hq _ Q) as (o & Ho & Hlo & Hhi & Hf0).
  assert (EN : knf k (l1, l2, l3, l4) = n_cart k l1 l2 l3 l4).
  { assert (L : forall l, 0 <= l -> len l = (l + 1) * (l + 2) / 2).
    { intros l Hl. exact (BasProof.cart_list_length l Hl). }
    clear - L H1 H2 H3 H4. unfold knf, kind_nf, n_cart. destruct k; cbn -[Z.mul Z.add Z.div Z.min] in *; rewrite !L by lia; reflexivity. }
  rewrite EN in *. destruct (Hf0 f0 Hf) as (f & Ef & Hx). exists o, f. split.
  { rewrite <- Ho. f_equal. unfold table_pos, qpos. destruct k; cbn -[Z.mul Z.add]; lia. }
  split; [|intros x Hxr; destruct (Hx x Hxr) as (Hr & v & Hv); exists v; split; [exact Hv|rewrite Hr; exact Hv]].
  rewrite <- Ef. destruct k; reflexivity.
Qed.

(** the sparse lists kept for shell [i] are those a call without optimizer computes *)
Lemma lists_cached {F} (O : fops F) (B : basis F) V ev :
  0 <= b_nbas B -> has_shells (b_atm B) (b_bas B) (b_nbas B) V -> shells_ok (b_nbas B) V (asize (b_env B)) ->
  env_is (b_env B) ev -> (exists i, 0 <= i < b_nbas B /\ 0 < v_np V i) ->
  exists tn pn ts ps, set_non0coeff O (b_bas B) (b_nbas B) (b_env B) = Some (Some ((tn, pn), (ts, ps))) /\
  forall i, 0 <= i < b_nbas B -> exists on os r,
    rd tn i = Some (Off on) /\ rd ts i = Some (Off os) /\
    CINTOpt_non0coeff_byshell (fun c => feq O c (OptModel.f0 O)) (uninit (v_np V i * v_nc V i)) (uninit (v_np V i))
      (sub (b_env B) (v_coef V i)) (v_np V i) (v_nc V i) = Some r /\
    (forall p, 0 <= p < v_np V i -> exists n, rd (snd r) p = Some n /\ rd pn (on + p) = Some n) /\
    (forall x, 0 <= x < v_np V i * v_nc V i -> exists c, rd (fst r) x = Some c /\ rd ps (os + x) = Some c).
Proof.
  intros Hn HV HS HE (i0 & Hi0 & Hp0).
  pose proof (set_non0coeff_ok O (b_atm B) (b_bas B) (b_nbas B) (b_env B) V ev Hn HV HS HE) as H.
  apply wp_exists in H. destruct H as (r & E & H). destruct r as [[[tn pn] [ts ps]]|].
  2:{ exfalso. pose proof (Zsum_next i0 (b_nbas B) (v_np V) Hi0 (np_nonneg (b_nbas B) (b_env B) V HS)).
      pose proof (Zsum_nonneg i0 (v_np V) ltac:(intros; apply (np_nonneg (b_nbas B) (b_env B) V HS); lia)). lia. }
  destruct H as (_ & _ & _ & _ & _ & HL). exists tn, pn, ts, ps. split; [exact E|]. intros i Hi.
  destruct (HS i Hi) as (_ & S1 & S2 & S3 & S4 & S5 & S6 & _).
  destruct (HL i Hi) as (Ln & Ls & Lp).
  pose proof (non0coeff_ok (fun c => feq O c (OptModel.f0 O)) (sub (b_env B) (v_coef V i)) (v_np V i) (v_nc V i)
    (cfv V ev i) (uninit (v_np V i * v_nc V i)) (uninit (v_np V i)) S1 S2 ltac:(cbn; lia) ltac:(cbn; lia)) as H.
  assert (HC : forall ic p, 0 <= ic < v_nc V i -> 0 <= p < v_np V i ->
    rd (sub (b_env B) (v_coef V i)) (v_np V i * ic + p) = Some (cfv V ev i ic p)).
  { intros ic p Hic Hp. rewrite OutProof.rd_sub by nia. destruct HE as [_ HE]. unfold cfv. apply HE. nia. }
  specialize (H HC). apply wp_exists in H. destruct H as (r & Er & _ & _ & Hr & _).
  exists (off V i), (offc V i), r. split; [exact Ln|]. split; [exact Ls|]. split; [exact Er|]. split.
  - intros p Hp. destruct (Hr p Hp) as [Hr1 _]. destruct (Lp p Hp) as [Lp1 _].
    eexists. split; [exact Hr1|]. exact Lp1.
  - intros x Hx. assert (Hc : 0 < v_nc V i) by nia.
    pose proof (Z.div_mod x (v_nc V i) ltac:(lia)) as Hdm. pose proof (Z.mod_pos_bound x (v_nc V i) Hc) as Hm.
    set (p := x / v_nc V i) in *. set (c := x mod v_nc V i) in *.
    assert (Hp : 0 <= p < v_np V i) by (split; [apply Z.div_pos; lia|apply Z.div_lt_upper_bound; lia]).
    destruct (Hr p Hp) as [_ Hr2]. destruct (Lp p Hp) as [_ Lp2].
    assert (Hlen : (Z.to_nat c < length (zseq (v_nc V i)))%nat).
    { unfold zseq. rewrite map_length, seq_length. lia. }
    specialize (Hr2 (Z.to_nat c) Hlen). specialize (Lp2 c Hm). rewrite Z2Nat.id in Hr2 by lia.
    replace x with (p * v_nc V i + c) by lia.
    assert (NE : exists v, nth_error (sorted_row (isz O) (cfv V ev i) (v_nc V i) p) (Z.to_nat c) = Some v).
    { destruct (nth_error (sorted_row (isz O) (cfv V ev i) (v_nc V i) p) (Z.to_nat c)) eqn:EE; [eauto|].
      apply nth_error_None in EE. rewrite sorted_row_length in EE. unfold zseq in *. rewrite map_length, seq_length in *. lia. }
    destruct NE as (v & NE). exists v. split; [rewrite Hr2|rewrite Lp2]; exact NE.
Qed.
