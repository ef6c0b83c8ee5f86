(** OvfI8.v — builds with a 64-bit FINT (-DI8): no size computation overflows as long as
    the size itself stays below 2^63. *)
From Verif Require Import Base BasModel EnvModel CacheModel OvfModel OvfSpec OvfProof OvfFinal OvfLim.
Local Open Scope Z_scope.

(** Only constants are computed in [int]. *)
Fixpoint ok64 (e : cexp) : Prop :=
  match e with
  | V _ _ | K _ => True
  | Shl1 z => z < 31
  | Add a b | Mul a b => ok64 a /\ ok64 b /\ match ty_of e with I32 => exact e < 2 ^ 31 | _ => True end
  | Max a b => ok64 a /\ ok64 b
  end.

Lemma ok64_fits e : pos e -> ok64 e -> exact e < 2 ^ 63 -> fits_all e = true.
Proof.
  induction e as [t z|z|z|e1 IHe1 e2 IHe2|e1 IHe1 e2 IHe2|e1 IHe1 e2 IHe2]; cbn [pos exact ok64 fits_all];
    intros Hp Ho Hb; [reflexivity|reflexivity| | | | ].
  - assert (2 ^ z < 2 ^ 31) by (apply Z.pow_lt_mono_r; lia). lia.
  - destruct Hp as [P1 P2]. destruct Ho as [O1 [O2 O3]].
    pose proof (pos_exact _ P1). pose proof (pos_exact _ P2).
    rewrite IHe1, IHe2 by (try assumption; lia). cbn [andb].
    cbn [exact] in O3. destruct (ty_of (e1 +! e2)); cbn [signed negb orb top]; lia.
  - destruct Hp as [P1 P2]. destruct Ho as [O1 [O2 O3]].
    pose proof (pos_exact _ P1). pose proof (pos_exact _ P2).
    destruct (mul_le (exact e1) (exact e2)) as [M1 M2]; try lia.
    rewrite IHe1, IHe2 by (try assumption; lia). cbn [andb].
    cbn [exact] in O3. destruct (ty_of (e1 *! e2)); cbn [signed negb orb top]; lia.
  - destruct Hp as [P1 P2]. destruct Ho as [O1 O2].
    rewrite IHe1, IHe2 by (try assumption; lia). reflexivity.
Qed.

Lemma store64 t e : t <> I32 -> pos e -> ok64 e -> exact e < 2 ^ 63 -> store t e = Some (exact e).
Proof.
  intros Ht Hp Ho Hb. pose proof (pos_exact _ Hp). rewrite store_ok by (try assumption; lia).
  rewrite ok64_fits by assumption. rewrite conv_id; [reflexivity|]. destruct t; [congruence|cbn [top]; lia|cbn [top]; lia].
Qed.

Lemma store_leng64 t e : t <> I32 -> size32 (g_size e) -> 0 <= gbits e < 30 -> leng e < 2 ^ 63 ->
  store t (e_leng I64 e) = Some (leng e).
Proof.
  intros Ht Hg Hb HL.
  assert (E : exact (e_leng I64 e) = leng e).
  { unfold leng. cbn [exact e_leng]. rewrite Z.shiftl_mul_pow2 by lia. lia. }
  rewrite store64; [rewrite E; reflexivity|exact Ht| | |rewrite E; exact HL].
  - cbn. sz. lia.
  - cbn [ok64 e_leng ty_of common exact]. assert (2 ^ gbits e <= 2 ^ 29) by (apply Z.pow_le_mono_r; lia).
    repeat split; lia.
Qed.

Lemma chain2 a b c : 1 <= a -> 1 <= b -> 1 <= c -> 1 <= a * b /\ 1 <= a * b * c /\ a * b <= a * b * c.
Proof. intros. pose proof (mul_le a b ltac:(lia) ltac:(lia)). pose proof (mul_le (a * b) c ltac:(lia) ltac:(lia)). lia. Qed.
Lemma chain3 n a b c : 1 <= n -> 1 <= a -> 1 <= b -> 1 <= c ->
  1 <= n * a * b * c /\ n <= n * a /\ n * a <= n * a * b /\ n * a * b <= n * a * b * c.
Proof.
  intros. pose proof (mul_le n a ltac:(lia) ltac:(lia)). pose proof (mul_le (n * a) b ltac:(lia) ltac:(lia)).
  pose proof (mul_le (n * a * b) c ltac:(lia) ltac:(lia)). lia.
Qed.
Lemma chain4 n a b c d : 1 <= n -> 1 <= a -> 1 <= b -> 1 <= c -> 1 <= d ->
  1 <= n * a * b * c * d /\ n <= n * a /\ n * a <= n * a * b /\ n * a * b <= n * a * b * c /\ n * a * b * c <= n * a * b * c * d.
Proof.
  intros. pose proof (chain3 n a b c ltac:(lia) ltac:(lia) ltac:(lia) ltac:(lia)).
  pose proof (mul_le (n * a * b * c) d ltac:(lia) ltac:(lia)). lia.
Qed.

Ltac s64 := rewrite store64; [|discriminate|cbn [pos top]; repeat split; lia|cbn [ok64 ty_of common exact]; repeat split; lia|cbn [exact]; lia]; cbn [exact bind].

Lemma q_int1e_i8 e ip jp : good1 e -> gbits e < 30 -> size32 ip -> size32 jp ->
  int1e_cache_size e ip jp < 2 ^ 63 ->
  q_int1e I64 I64 e ip jp = Some (int1e_cache_size e ip jp).
Proof.
  intros H Hb30 Hip Hjp HS. destruct H as [h_nf0 h_ci0 h_cj0 h_ck0 h_e10 h_t0 h_g0 h_nr0 h_b0].
  pose proof (leng_pos e ltac:(assumption) h_b0) as Hl.
  pose proof (fun t Ht => store_leng64 t e Ht h_g0 (conj h_b0 Hb30)) as Hst. sz.
  unfold q_int1e, int1e_cache_size, ncomp1, OF_CMPLX in *.
  generalize dependent (leng e). generalize dependent (e_leng I64 e).
  generalize dependent (nf e). generalize dependent (i_ctr e). generalize dependent (j_ctr e).
  generalize dependent (ncomp_e1 e). generalize dependent (ncomp_tensor e).
  clear h_ck0 h_nr0 h_g0 h_b0 Hb30. clear e.
  intros T HT E1 HE1 cj Hcj ci Hci Nf HNf EL L HS Hl Hst. revert HS.
  pose proof (mul_le E1 T ltac:(lia) ltac:(lia)) as P1.
  pose proof (mul_le Nf ci ltac:(lia) ltac:(lia)) as P2.
  pose proof (mul_le (Nf * ci) cj ltac:(lia) ltac:(lia)) as P3.
  pose proof (mul_le (Nf * ci * cj) (E1 * T) ltac:(lia) ltac:(lia)) as P4.
  pose proof (mul_le (Nf * ci) (E1 * T) ltac:(lia) ltac:(lia)) as P5.
  pose proof (mul_le Nf (E1 * T) ltac:(lia) ltac:(lia)) as P6.
  pose proof (mul_le Nf (Nf * ci * cj) ltac:(lia) ltac:(lia)) as P7.
  pose proof (mul_le (Nf * (Nf * ci * cj)) (E1 * T) ltac:(lia) ltac:(lia)) as P8.
  assert (1 <= ip * jp /\ 1 <= ip * ci /\ 1 <= jp * cj) as (R1 & R2 & R3) by (repeat split; apply mul_pos; lia).
  intros HS. apply max_lt in HS.
  s64. s64. rewrite Hst by (try discriminate; lia). cbn [bind].
  s64. s64. s64. s64. s64.
  rewrite conv_id; [reflexivity|cbn [top]; lia].
Qed.

Lemma size_2e_i8 e ip jp kp lp : good e -> gbits e < 30 -> size32 ip -> size32 jp -> size32 kp -> size32 lp ->
  int2e_cache_size e ip jp kp lp < 2 ^ 63 ->
  size_2e I64 e ip jp kp lp = Some (int2e_cache_size e ip jp kp lp).
Proof.
  intros H Hb30 Hip Hjp Hkp Hlp HS.
  pose proof (leng_pos e (g_g e H) (g_b e H)) as Hl.
  pose proof (fun t Ht => store_leng64 t e Ht (g_g e H) (conj (g_b e H) Hb30)) as Hst.
  destruct H as [HNf Hci Hcj Hck Hcl _ _ HE1 HE2 HT _ _ _]. sz.
  assert (1 <= ip * jp /\ 1 <= kp * lp /\ 1 <= ip * i_ctr e /\ 1 <= jp * j_ctr e /\ 1 <= kp * k_ctr e /\ 1 <= lp * l_ctr e)
    as (R1 & R2 & R3 & R4 & R5 & R6) by (repeat split; apply mul_pos; lia).
  unfold size_2e, int2e_cache_size, pdata_size_2e, nc4, ncomp2, e_pdata_2e, e_prims_2e in *.
  generalize dependent (leng e). generalize dependent (e_leng I64 e).
  generalize dependent (nf e). generalize dependent (i_ctr e). generalize dependent (j_ctr e).
  generalize dependent (k_ctr e). generalize dependent (l_ctr e).
  generalize dependent (ncomp_e1 e). generalize dependent (ncomp_e2 e). generalize dependent (ncomp_tensor e).
  clear Hb30. clear e.
  intros T HT E2 HE2 E1 HE1 cl Hcl R6 ck Hck R5 cj Hcj R4 ci Hci R3 Nf HNf EL L HS Hl Hst. revert HS.
  pose proof (chain2 E1 E2 T ltac:(lia) ltac:(lia) ltac:(lia)) as P1.
  pose proof (chain4 Nf ci cj ck cl ltac:(lia) ltac:(lia) ltac:(lia) ltac:(lia) ltac:(lia)) as P2.
  pose proof (q3 _ Nf _ (proj1 P2) ltac:(lia) (proj1 (proj2 P1))) as P6.
  intros HS. pose proof (max_lt _ _ _ HS) as HS'.
  assert (B1 : Nf * ci * cj * ck * cl < 2 ^ 63) by (clear - HS' P1 P2 P6 HNf Hl; lia).
  assert (B2 : E1 * E2 * T < 2 ^ 63) by (clear - HS' P1 P2 P6 HNf Hl; lia).
  assert (EN : store I64 (V I64 E1 *! V I64 E2 *! V I64 T) = Some (E1 * E2 * T))
    by (clear HS HS' P2 P6; s64; reflexivity).
  assert (EC : store U64 (V U64 Nf *! V I64 ci *! V I64 cj *! V I64 ck *! V I64 cl) = Some (Nf * ci * cj * ck * cl))
    by (clear HS HS' P1 P6; s64; reflexivity).
  s64. rewrite EC, EN. cbn [bind]. clear EC EN B1 B2. destruct P1 as [_ [P1 _]]. destruct P2 as [P2 _].
  generalize dependent (Nf * ci * cj * ck * cl). generalize dependent (E1 * E2 * T).
  intros N P1 nc P2 P6 HS HS'. clear HS.
  s64. rewrite Hst by (try discriminate; lia). cbn [bind]. s64. s64. reflexivity.
Qed.

Lemma q_int2e_i8 e ip jp kp lp : good e -> gbits e < 30 -> size32 ip -> size32 jp -> size32 kp -> size32 lp ->
  int2e_cache_size e ip jp kp lp < 2 ^ 63 ->
  q_int2e I64 I64 e ip jp kp lp = Some (int2e_cache_size e ip jp kp lp).
Proof.
  intros H Hb30 Hip Hjp Hkp Hlp HS. unfold q_int2e. rewrite size_2e_i8 by assumption. cbn [bind].
  rewrite conv_id; [reflexivity|]. cbn [top]. split; [|exact HS].
  unfold int2e_cache_size. pose proof (leng_pos e (g_g e H) (g_b e H)).
  destruct H as [HNf Hci Hcj Hck Hcl _ _ HE1 HE2 HT _ _ _]. sz.
  assert (0 <= nc4 e * ncomp2 e) by (unfold nc4, ncomp2; repeat apply Z.mul_nonneg_nonneg; lia).
  lia.
Qed.

Lemma q_int3c2e_i8 e ip jp kp : good1 e -> gbits e < 30 -> size32 ip -> size32 jp -> size32 kp ->
  int3c2e_cache_size e ip jp kp < 2 ^ 63 ->
  q_int3c2e I64 I64 e ip jp kp = Some (int3c2e_cache_size e ip jp kp).
Proof.
  intros H Hb30 Hip Hjp Hkp HS.
  pose proof (leng_pos e (h_g e H) (h_b e H)) as Hl.
  pose proof (fun t Ht => store_leng64 t e Ht (h_g e H) (conj (h_b e H) Hb30)) as Hst.
  destruct H as [HNf Hci Hcj Hck HE1 HT _ _ _]. sz.
  assert (1 <= ip * jp /\ 1 <= ip * i_ctr e /\ 1 <= jp * j_ctr e /\ 1 <= kp * k_ctr e)
    as (R1 & R3 & R4 & R5) by (repeat split; apply mul_pos; lia).
  unfold q_int3c2e, int3c2e_cache_size, pdata_size_3c2e, nc3, ncomp1, e_pdata_3c2e in *.
  generalize dependent (leng e). generalize dependent (e_leng I64 e).
  generalize dependent (nf e). generalize dependent (i_ctr e). generalize dependent (j_ctr e).
  generalize dependent (k_ctr e).
  generalize dependent (ncomp_e1 e). generalize dependent (ncomp_tensor e).
  clear Hb30. clear e.
  intros T HT E1 HE1 ck Hck R5 cj Hcj R4 ci Hci R3 Nf HNf EL L HS Hl Hst. revert HS.
  pose proof (mul_le E1 T ltac:(lia) ltac:(lia)) as P1.
  pose proof (chain3 Nf ci cj ck ltac:(lia) ltac:(lia) ltac:(lia) ltac:(lia)) as P2.
  pose proof (q3 _ Nf _ (proj1 P2) ltac:(lia) (mul_pos E1 T ltac:(lia) ltac:(lia))) as P6.
  intros HS. pose proof (max_lt _ _ _ HS) as HS'.
  assert (B1 : Nf * ci * cj * ck < 2 ^ 63) by (clear - HS' P1 P2 P6 HNf Hl; lia).
  assert (B2 : E1 * T < 2 ^ 63) by (clear - HS' P1 P2 P6 HNf Hl; lia).
  assert (EN : store I64 (V I64 E1 *! V I64 T) = Some (E1 * T))
    by (clear HS HS' P2 P6; s64; reflexivity).
  assert (EC : store U64 (V I64 Nf *! V I64 ci *! V I64 cj *! V I64 ck) = Some (Nf * ci * cj * ck))
    by (clear HS HS' P1 P6; s64; reflexivity).
  rewrite EC, EN. cbn [bind]. clear EC EN B1 B2. destruct P2 as [P2 _].
  generalize dependent (Nf * ci * cj * ck). generalize dependent (E1 * T).
  intros N P1 nc P2 P6 HS HS'. clear HS.
  s64. rewrite Hst by (try discriminate; lia). cbn [bind]. s64. s64. reflexivity.
Qed.

Lemma q_int3c1e_i8 e ip jp kp : good1 e -> gbits e < 30 -> size32 ip -> size32 jp -> size32 kp ->
  int3c1e_cache_size e ip jp kp < 2 ^ 63 - nc3 e * ncomp1 e ->
  q_int3c1e I64 I64 e ip jp kp = Some (int3c1e_cache_size e ip jp kp).
Proof.
  intros H Hb30 Hip Hjp Hkp HS.
  pose proof (leng_pos e (h_g e H) (h_b e H)) as Hl.
  pose proof (fun t Ht => store_leng64 t e Ht (h_g e H) (conj (h_b e H) Hb30)) as Hst.
  destruct H as [HNf Hci Hcj Hck HE1 HT _ _ _]. sz.
  assert (1 <= ip * i_ctr e /\ 1 <= jp * j_ctr e /\ 1 <= kp * k_ctr e)
    as (R3 & R4 & R5) by (repeat split; apply mul_pos; lia).
  unfold q_int3c1e, size_3c1e, int3c1e_cache_size, nc3, ncomp1 in *.
  generalize dependent (leng e). generalize dependent (e_leng I64 e).
  generalize dependent (nf e). generalize dependent (i_ctr e). generalize dependent (j_ctr e).
  generalize dependent (k_ctr e).
  generalize dependent (ncomp_e1 e). generalize dependent (ncomp_tensor e).
  clear Hb30. clear e.
  intros T HT E1 HE1 ck Hck R5 cj Hcj R4 ci Hci R3 Nf HNf EL L HS Hl Hst. revert HS.
  pose proof (mul_le E1 T ltac:(lia) ltac:(lia)) as P1.
  pose proof (chain3 Nf ci cj ck ltac:(lia) ltac:(lia) ltac:(lia) ltac:(lia)) as P2.
  pose proof (q3 _ Nf _ (proj1 P2) ltac:(lia) (mul_pos E1 T ltac:(lia) ltac:(lia))) as P6.
  intros HS. pose proof (max_lt _ _ _ HS) as HS'.
  assert (B1 : Nf * ci * cj * ck < 2 ^ 63) by (clear - HS' P1 P2 P6 HNf Hl; lia).
  assert (B2 : E1 * T < 2 ^ 63) by (clear - HS' P1 P2 P6 HNf Hl; lia).
  assert (EN : store I64 (V I64 E1 *! V I64 T) = Some (E1 * T))
    by (clear HS HS' P2 P6; s64; reflexivity).
  assert (EC : store I64 (V I64 Nf *! V I64 ci *! V I64 cj *! V I64 ck) = Some (Nf * ci * cj * ck))
    by (clear HS HS' P1 P6; s64; reflexivity).
  rewrite EC, EN. cbn [bind]. clear EC EN B1 B2. destruct P2 as [P2 _].
  generalize dependent (Nf * ci * cj * ck). generalize dependent (E1 * T).
  intros N P1 nc P2 P6 HS HS'. clear HS.
  s64. rewrite Hst by (try discriminate; lia). cbn [bind]. s64. s64.
  rewrite conv_id; [reflexivity|cbn [top]; lia].
Qed.

Lemma q_int4c1e_i8 e ip jp kp lp : good e -> gbits e < 30 -> size32 ip -> size32 jp -> size32 kp -> size32 lp ->
  int4c1e_cache_size e ip jp kp lp < 2 ^ 63 ->
  q_int4c1e I64 I64 e ip jp kp lp = Some (int4c1e_cache_size e ip jp kp lp).
Proof.
  intros H Hb30 Hip Hjp Hkp Hlp HS.
  pose proof (leng_pos e (g_g e H) (g_b e H)) as Hl.
  pose proof (fun t Ht => store_leng64 t e Ht (g_g e H) (conj (g_b e H) Hb30)) as Hst.
  destruct H as [HNf Hci Hcj Hck Hcl _ _ HE1 HE2 HT _ _ _]. sz.
  assert (1 <= ip * i_ctr e /\ 1 <= jp * j_ctr e /\ 1 <= kp * k_ctr e /\ 1 <= lp * l_ctr e)
    as (R3 & R4 & R5 & R6) by (repeat split; apply mul_pos; lia).
  unfold q_int4c1e, int4c1e_cache_size, nc4, ncomp2, OF_CMPLX in *.
  generalize dependent (leng e). generalize dependent (e_leng I64 e).
  generalize dependent (nf e). generalize dependent (i_ctr e). generalize dependent (j_ctr e).
  generalize dependent (k_ctr e). generalize dependent (l_ctr e).
  generalize dependent (ncomp_e1 e). generalize dependent (ncomp_e2 e). generalize dependent (ncomp_tensor e).
  clear Hb30. clear e.
  intros T HT E2 HE2 E1 HE1 cl Hcl R6 ck Hck R5 cj Hcj R4 ci Hci R3 Nf HNf EL L HS Hl Hst. revert HS.
  pose proof (chain2 E1 E2 T ltac:(lia) ltac:(lia) ltac:(lia)) as P1.
  pose proof (chain4 Nf ci cj ck cl ltac:(lia) ltac:(lia) ltac:(lia) ltac:(lia) ltac:(lia)) as P2.
  pose proof (q3 _ Nf _ (proj1 P2) ltac:(lia) (proj1 (proj2 P1))) as P6.
  intros HS. pose proof (max_lt _ _ _ HS) as HS'.
  assert (B1 : Nf * ci * cj * ck * cl < 2 ^ 63) by (clear - HS' P1 P2 P6 HNf Hl; lia).
  assert (B2 : E1 * E2 * T < 2 ^ 63) by (clear - HS' P1 P2 P6 HNf Hl; lia).
  assert (EN : store I64 (V I64 E1 *! V I64 E2 *! V I64 T) = Some (E1 * E2 * T))
    by (clear HS HS' P2 P6; s64; reflexivity).
  assert (EC : store U64 (V I64 Nf *! V I64 ci *! V I64 cj *! V I64 ck *! V I64 cl) = Some (Nf * ci * cj * ck * cl))
    by (clear HS HS' P1 P6; s64; reflexivity).
  rewrite EC, EN. cbn [bind]. clear EC EN B1 B2. destruct P1 as [_ [P1 _]]. destruct P2 as [P2 _].
  generalize dependent (Nf * ci * cj * ck * cl). generalize dependent (E1 * E2 * T).
  intros N P1 nc P2 P6 HS HS'. clear HS.
  s64. rewrite Hst by (try discriminate; lia). cbn [bind]. s64. s64. reflexivity.
Qed.
