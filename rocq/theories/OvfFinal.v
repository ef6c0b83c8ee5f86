(** OvfFinal.v — the size computations of each driver. *)
From Verif Require Import Base BasModel EnvModel CacheModel OvfModel OvfSpec OvfProof.
Local Open Scope Z_scope.

Lemma mul_le a b : 1 <= a -> 1 <= b -> a <= a * b /\ b <= a * b.
Proof. nia. Qed.
Lemma mul_pos a b : 1 <= a -> 1 <= b -> 1 <= a * b.
Proof. nia. Qed.

Ltac clia := repeat match goal with x := _ : _ |- _ => clearbody x end; lia.
Ltac sz := unfold size32 in *.

Lemma pos_leng e : size32 (g_size e) -> 0 <= gbits e -> pos (e_leng I32 e).
Proof. intros [H1 H2] Hb. cbn. lia. Qed.

Lemma exact_leng e : 0 <= gbits e -> exact (e_leng I32 e) = leng e.
Proof. intros H. unfold leng. cbn [exact e_leng]. rewrite Z.shiftl_mul_pow2 by lia. lia. Qed.

Lemma store_leng t e : size32 (g_size e) -> 0 <= gbits e ->
  store t (e_leng I32 e) = if leng e <? 2 ^ 31 then Some (leng e) else None.
Proof.
  intros H Hb. rewrite store32 by (try reflexivity; apply pos_leng; assumption).
  rewrite exact_leng by assumption. reflexivity.
Qed.

Lemma leng_pos e : size32 (g_size e) -> 0 <= gbits e -> 1 <= leng e.
Proof. intros H Hb. rewrite <- exact_leng by assumption. apply pos_exact, pos_leng; assumption. Qed.

(** Step through [x <- store ..;; rest]: [tac] proves positivity of the leaves. *)
Ltac step32 :=
  rewrite store32 by (first [reflexivity | cbn [pos top]; repeat split; lia]);
  cbn [exact].

(** *** one-electron *)
Lemma q_int1e_ok C e ip jp : C <> U64 -> good1 e -> size32 ip -> size32 jp ->
  q_int1e I32 C e ip jp =
  if int1e_cache_size e ip jp <? 2 ^ 31 then Some (int1e_cache_size e ip jp) else None.
Proof.
  intros HC H Hip Hjp. destruct H as [h_nf0 h_ci0 h_cj0 h_ck0 h_e10 h_t0 h_g0 h_nr0 h_b0]. sz. unfold q_int1e, int1e_cache_size, ncomp1.
  pose proof (leng_pos e ltac:(assumption) h_b0) as Hl.
  set (Nf := nf e) in *. set (ci := i_ctr e) in *. set (cj := j_ctr e) in *.
  set (E1 := ncomp_e1 e) in *. set (T := ncomp_tensor e) in *. set (L := leng e) in *.
  pose proof (mul_pos E1 T ltac:(lia) ltac:(lia)) as P1.
  pose proof (mul_pos Nf ci ltac:(lia) ltac:(lia)) as P2.
  pose proof (mul_pos (Nf * ci) cj ltac:(lia) ltac:(lia)) as P3.
  set (nc := Nf * ci * cj) in *.
  destruct (mul_le nc (E1 * T) ltac:(lia) ltac:(lia)) as [Q1 Q2].
  destruct (mul_le Nf nc ltac:(lia) ltac:(lia)) as [Q3 Q4].
  destruct (mul_le (Nf * nc) (E1 * T) ltac:(lia) ltac:(lia)) as [Q5 Q6].
  destruct (mul_le (Nf * ci) (E1 * T) ltac:(lia) ltac:(lia)) as [Q7 Q8].
  destruct (mul_le Nf (E1 * T) ltac:(lia) ltac:(lia)) as [Q9 Q10].
  assert (R1 : 1 <= ip * jp) by nia. assert (R2 : 1 <= ip * ci) by nia. assert (R3 : 1 <= jp * cj) by nia.
  set (S1 := Z.max _ _).
  assert (Hnone : forall x, x <= S1 -> 2 ^ 31 <= x -> None = if S1 <? 2 ^ 31 then Some S1 else None).
  { intros x Hx Hy. destruct (Z.ltb_spec S1 (2 ^ 31)); [lia|reflexivity]. }
  step32. fold Nf ci cj nc.
  destruct (Z.ltb_spec nc (2 ^ 31)) as [A1|A1]; cbn [bind]; [|apply (Hnone nc); lia].
  step32. fold E1 T.
  destruct (Z.ltb_spec (E1 * T) (2 ^ 31)) as [A2|A2]; cbn [bind]; [|apply (Hnone (E1 * T)); lia].
  rewrite store_leng by (try assumption; split; assumption). fold L.
  destruct (Z.ltb_spec L (2 ^ 31)) as [A3|A3]; cbn [bind]; [|apply (Hnone L); lia].
  step32. fold Nf.
  destruct (Z.ltb_spec (Nf * nc * (E1 * T)) (2 ^ 31)) as [A4|A4]; cbn [bind]; [|apply (Hnone (Nf * nc * (E1 * T))); lia].
  step32. fold Nf ci.
  destruct (Z.ltb_spec (Nf * ci * (E1 * T)) (2 ^ 31)) as [A5|A5]; cbn [bind]; [|apply (Hnone (Nf * ci * (E1 * T))); lia].
  step32. fold Nf.
  destruct (Z.ltb_spec (Nf * (E1 * T)) (2 ^ 31)) as [A6|A6]; cbn [bind]; [|apply (Hnone (Nf * (E1 * T))); lia].
  step32. fold Nf ci cj.
  set (PD := ip * jp * 5 + ip * ci + jp * cj + (ip + jp) * 2 + Nf * 3) in *.
  destruct (Z.ltb_spec PD (2 ^ 31)) as [A7|A7]; cbn [bind]; [|apply (Hnone PD); lia].
  rewrite store32; [|reflexivity|cbn [pos top]; fold Nf; unfold OF_CMPLX; repeat split; lia].
  cbn [exact]. fold Nf. unfold OF_CMPLX. fold S1.
  destruct (Z.ltb_spec S1 (2 ^ 31)); cbn [bind]; [|reflexivity].
  rewrite conv_id; [reflexivity|]. destruct C; [simpl; lia|simpl; lia|congruence].
Qed.

(** *** four-index two-electron *)
Lemma size_2e_ok e ip jp kp lp : good e -> size32 ip -> size32 jp -> size32 kp -> size32 lp ->
  int2e_cache_size e ip jp kp lp < 2 ^ 64 ->
  size_2e I32 e ip jp kp lp =
  if (ncomp2 e <? 2 ^ 31) && (prims_2e e ip jp kp lp <? 2 ^ 31) && (leng e <? 2 ^ 31)
  then Some (int2e_cache_size e ip jp kp lp) else None.
Proof.
  intros H Hip Hjp Hkp Hlp HS.
  pose proof (leng_pos e (g_g e H) (g_b e H)) as Hl.
  pose proof (fun t => store_leng t e (g_g e H) (g_b e H)) as Hst.
  destruct H as [HNf Hci Hcj Hck Hcl _ _ HE1 HE2 HT _ _ _]. sz.
  assert (EPD : pdata_size_2e e ip jp kp lp = prims_2e e ip jp kp lp + nf e * 3).
  { unfold pdata_size_2e, prims_2e. lia. }
  assert (Hpp : pos (e_prims_2e I32 e ip jp kp lp)) by (cbn; lia).
  assert (Hpe : pure32 (e_prims_2e I32 e ip jp kp lp) = true) by reflexivity.
  assert (Hpx : exact (e_prims_2e I32 e ip jp kp lp) = prims_2e e ip jp kp lp) by reflexivity.
  pose proof (pos_exact _ Hpp) as HPR. rewrite Hpx in HPR.
  unfold size_2e, int2e_cache_size, nc4, ncomp2, e_pdata_2e in *.
  rewrite EPD in *. clear EPD.
  generalize dependent (prims_2e e ip jp kp lp). generalize dependent (e_prims_2e I32 e ip jp kp lp).
  generalize dependent (leng e). generalize dependent (e_leng I32 e).
  generalize dependent (nf e). generalize dependent (i_ctr e). generalize dependent (j_ctr e).
  generalize dependent (k_ctr e). generalize dependent (l_ctr e).
  generalize dependent (ncomp_e1 e). generalize dependent (ncomp_e2 e). generalize dependent (ncomp_tensor e).
  clear e ip jp kp lp Hip Hjp Hkp Hlp.
  intros T HT E2 HE2 E1 HE1 cl Hcl ck Hck cj Hcj ci Hci Nf HNf EL L Hl Hst PE Hpp Hpe PR HS Hpx HPR.
  assert (P1 : 1 <= E1 * E2 * T) by nia.
  assert (P2 : 1 <= Nf * ci /\ 1 <= Nf * ci * cj) by nia.
  assert (P3 : 1 <= Nf * ci * cj * ck /\ 1 <= Nf * ci * cj * ck * cl) by nia.
  assert (E0 : store I32 (V I32 E1 *! V I32 E2 *! V I32 T) = if E1 * E2 * T <? 2 ^ 31 then Some (E1 * E2 * T) else None).
  { rewrite store32; [reflexivity|reflexivity|cbn; lia]. }
  assert (E3 : Nf * ci * cj * ck * cl < 2 ^ 64 ->
     store U64 (V U64 Nf *! V I32 ci *! V I32 cj *! V I32 ck *! V I32 cl) = Some (Nf * ci * cj * ck * cl)).
  { intros Hb. rewrite store_ok; [|cbn [pos top]; repeat split; lia|cbn [exact]; exact Hb].
    cbn [fits_all ty_of common signed negb orb andb exact]. rewrite conv_id; [reflexivity|cbn [top]; lia]. }
  rewrite store32; [|reflexivity|cbn; lia]. cbn [exact].
  replace (Nf <? 2 ^ 31) with true by lia. cbn [bind].
  rewrite E0. clear E0.
  generalize dependent (Nf * ci * cj * ck * cl). intros nc HS P3 E3.
  generalize dependent (E1 * E2 * T). intros N P1 HS. clear P2 HE1 HE2 HT Hci Hcj Hck Hcl.
  assert (Q : nc <= nc * N /\ Nf <= Nf * N /\ N <= nc * N) by nia.
  assert (HSA : L + Nf * N + nc * N * 3 + (PR + Nf * 3) < 2 ^ 64 /\ nc * N + Nf * 4 < 2 ^ 64)
    by (split; (eapply Z.le_lt_trans; [|exact HS]); [apply Z.le_max_l|apply Z.le_max_r]).
  rewrite E3 by lia. cbn [bind].
  destruct (Z.ltb_spec N (2 ^ 31)) as [A1|A1]; cbn [bind andb]; [|reflexivity].
  rewrite store_ok; [|cbn [pos top]; repeat split; try assumption; lia|cbn [exact]; lia].
  cbn [fits_all ty_of common signed negb orb andb exact].
  rewrite (pure32_ty PE Hpe), (pure32_fits PE Hpe Hpp), Hpx. cbn [common signed negb orb andb].
  rewrite !andb_true_r.
  destruct (Z.ltb_spec PR (2 ^ 31)) as [A2|A2]; cbn [bind andb]; [|reflexivity].
  rewrite conv_id by (cbn [top]; lia). cbn [bind].
  rewrite Hst.
  destruct (Z.ltb_spec L (2 ^ 31)) as [A3|A3]; cbn [bind andb]; [|reflexivity].
  rewrite store_ok; [|cbn [pos top]; repeat split; lia|cbn [exact]; lia].
  cbn [fits_all ty_of common signed negb orb andb exact bind].
  rewrite conv_id by (cbn [top]; lia). cbn [bind].
  rewrite store_ok; [|cbn [pos top]; repeat split; lia|cbn [exact]; lia].
  cbn [fits_all ty_of common signed negb orb andb exact bind].
  rewrite conv_id by (cbn [top]; lia). reflexivity.
Qed.

(** A mixed expression: [c] says when all its FINT parts fit. *)
Ltac stU c :=
  rewrite store_ok; [|cbn [pos top]; repeat split; lia|cbn [exact]; lia];
  cbn [fits_all ty_of common signed negb orb andb exact];
  match goal with
  | |- context [if ?b then Some (conv _ _) else None] => replace b with c by (cbn [top]; lia)
  end.
Ltac st := rewrite store32; [|reflexivity|cbn [pos top]; repeat split; lia]; cbn [exact].

Lemma max_lt a b c : Z.max a b < c -> a < c /\ b < c.
Proof. lia. Qed.

Lemma prod3 n a b c : 1 <= n -> 1 <= a -> 1 <= b -> 1 <= c ->
  1 <= n * a /\ 1 <= n * a * b /\ n <= n * a * b * c.
Proof. intros. assert (n <= n * a) by nia. assert (n * a <= n * a * b) by nia. assert (n * a * b <= n * a * b * c) by nia. lia. Qed.

Lemma q3 nc n N : 1 <= nc -> 1 <= n -> 1 <= N -> nc <= nc * N /\ n <= n * N /\ N <= n * N.
Proof. nia. Qed.
Lemma q4 nc n N : n <= nc -> 1 <= n -> 1 <= N -> nc <= nc * N /\ n <= n * N /\ N <= n * N /\ n * N <= nc * N.
Proof. nia. Qed.

Lemma alloc8 S : 1 <= S < 2 ^ 61 -> store U64 (V U64 8 *! V U64 S) = Some (8 * S).
Proof.
  intros H. rewrite store_ok; [|cbn [pos top]; lia|cbn [exact]; lia].
  cbn [fits_all ty_of common signed negb orb andb exact]. rewrite conv_id by (cbn [top]; lia). reflexivity.
Qed.

(** *** three-index two-electron *)
Lemma q_int3c2e_ok C e ip jp kp : C <> U64 -> good1 e -> size32 ip -> size32 jp -> size32 kp ->
  int3c2e_cache_size e ip jp kp < 2 ^ 63 ->
  q_int3c2e I32 C e ip jp kp =
  if (nc3 e <? 2 ^ 31) && (ncomp1 e <? 2 ^ 31) && (pdata_size_3c2e e ip jp kp <? 2 ^ 31) &&
     (leng e <? 2 ^ 31) && (nf e * ncomp1 e <? 2 ^ 31) &&
     match C with I32 => leng e + nf e * ncomp1 e <? 2 ^ 31 | _ => true end
  then Some (conv C (int3c2e_cache_size e ip jp kp)) else None.
Proof.
  intros HC H Hip Hjp Hkp HS.
  pose proof (leng_pos e (h_g e H) (h_b e H)) as Hl.
  pose proof (fun t => store_leng t e (h_g e H) (h_b e H)) as Hst.
  destruct H as [HNf Hci Hcj Hck HE1 HT _ _ _]. sz.
  assert (Hpp : pos (e_pdata_3c2e I32 e ip jp kp)) by (cbn; lia).
  assert (Hps : forall t, store t (e_pdata_3c2e I32 e ip jp kp)
    = if pdata_size_3c2e e ip jp kp <? 2 ^ 31 then Some (pdata_size_3c2e e ip jp kp) else None).
  { intros t. rewrite store32; [reflexivity|reflexivity|exact Hpp]. }
  pose proof (pos_exact _ Hpp) as HP. change (exact (e_pdata_3c2e I32 e ip jp kp)) with (pdata_size_3c2e e ip jp kp) in HP.
  assert (HP3 : nf e * 3 <= pdata_size_3c2e e ip jp kp).
  { unfold pdata_size_3c2e. assert (0 <= ip * jp /\ 0 <= ip * i_ctr e /\ 0 <= jp * j_ctr e /\ 0 <= kp * k_ctr e) by nia. lia. }
  clear Hpp.
  unfold q_int3c2e, int3c2e_cache_size, nc3, ncomp1 in *.
  generalize dependent (pdata_size_3c2e e ip jp kp). generalize dependent (e_pdata_3c2e I32 e ip jp kp).
  generalize dependent (leng e). generalize dependent (e_leng I32 e).
  generalize dependent (nf e). generalize dependent (i_ctr e). generalize dependent (j_ctr e).
  generalize dependent (k_ctr e).
  generalize dependent (ncomp_e1 e). generalize dependent (ncomp_tensor e).
  clear e ip jp kp Hip Hjp Hkp.
  intros T HT E1 HE1 ck Hck cj Hcj ci Hci Nf HNf EL L Hl Hst PE PD HS Hps HP HP3.
  assert (P1 : 1 <= E1 * T) by nia.
  assert (P2 : 1 <= Nf * ci /\ 1 <= Nf * ci * cj /\ 1 <= Nf * ci * cj * ck) by nia.
  st. assert (E0 : store I32 (V I32 E1 *! V I32 T) = if E1 * T <? 2 ^ 31 then Some (E1 * T) else None)
    by (st; reflexivity).
  rewrite E0. clear E0.
  destruct P2 as [_ [_ P2]].
  generalize dependent (Nf * ci * cj * ck). intros nc HS P2.
  generalize dependent (E1 * T). intros N P1 HS.
  assert (Q : nc <= nc * N /\ Nf <= Nf * N /\ N <= Nf * N) by nia.
  apply max_lt in HS.
  destruct (Z.ltb_spec nc (2 ^ 31)) as [A0|A0]; cbn [bind andb]; [|reflexivity].
  destruct (Z.ltb_spec N (2 ^ 31)) as [A1|A1]; cbn [bind andb]; [|reflexivity].
  rewrite Hps. destruct (Z.ltb_spec PD (2 ^ 31)) as [A2|A2]; cbn [bind andb]; [|reflexivity].
  rewrite Hst. destruct (Z.ltb_spec L (2 ^ 31)) as [A3|A3]; cbn [bind andb]; [|reflexivity].
  st. destruct (Z.ltb_spec (Nf * N) (2 ^ 31)) as [A4|A4]; cbn [bind andb]; [|reflexivity].
  destruct C; [| |congruence].
  - stU (L + Nf * N <? 2 ^ 31). reflexivity.
  - stU true. reflexivity.
Qed.

Lemma a_int3c2e_ok e ip jp kp : good1 e -> size32 ip -> size32 jp -> size32 kp ->
  int3c2e_cache_size e ip jp kp < 2 ^ 61 ->
  a_int3c2e I32 e ip jp kp =
  if (nc3 e <? 2 ^ 31) && (ncomp1 e <? 2 ^ 31) && (pdata_size_3c2e e ip jp kp <? 2 ^ 31) &&
     (leng e <? 2 ^ 31) && (nf e * ncomp1 e <? 2 ^ 31)
  then Some (8 * int3c2e_cache_size e ip jp kp) else None.
Proof.
  intros H Hip Hjp Hkp HS.
  pose proof (leng_pos e (h_g e H) (h_b e H)) as Hl.
  pose proof (fun t => store_leng t e (h_g e H) (h_b e H)) as Hst.
  destruct H as [HNf Hci Hcj Hck HE1 HT _ _ _]. sz.
  assert (Hpp : pos (e_pdata_3c2e I32 e ip jp kp)) by (cbn; lia).
  assert (Hps : forall t, store t (e_pdata_3c2e I32 e ip jp kp)
    = if pdata_size_3c2e e ip jp kp <? 2 ^ 31 then Some (pdata_size_3c2e e ip jp kp) else None).
  { intros t. rewrite store32; [reflexivity|reflexivity|exact Hpp]. }
  pose proof (pos_exact _ Hpp) as HP. change (exact (e_pdata_3c2e I32 e ip jp kp)) with (pdata_size_3c2e e ip jp kp) in HP.
  assert (HP3 : nf e * 3 <= pdata_size_3c2e e ip jp kp).
  { unfold pdata_size_3c2e. assert (0 <= ip * jp /\ 0 <= ip * i_ctr e /\ 0 <= jp * j_ctr e /\ 0 <= kp * k_ctr e) by nia. lia. }
  clear Hpp.
  unfold a_int3c2e, int3c2e_cache_size, nc3, ncomp1 in *.
  generalize dependent (pdata_size_3c2e e ip jp kp). generalize dependent (e_pdata_3c2e I32 e ip jp kp).
  generalize dependent (leng e). generalize dependent (e_leng I32 e).
  generalize dependent (nf e). generalize dependent (i_ctr e). generalize dependent (j_ctr e).
  generalize dependent (k_ctr e).
  generalize dependent (ncomp_e1 e). generalize dependent (ncomp_tensor e).
  clear e ip jp kp Hip Hjp Hkp.
  intros T HT E1 HE1 ck Hck cj Hcj ci Hci Nf HNf EL L Hl Hst PE PD HS Hps HP HP3.
  assert (P1 : 1 <= E1 * T) by nia.
  assert (P2 : 1 <= Nf * ci /\ 1 <= Nf * ci * cj /\ 1 <= Nf * ci * cj * ck) by nia.
  st. assert (E0 : store I32 (V I32 E1 *! V I32 T) = if E1 * T <? 2 ^ 31 then Some (E1 * T) else None)
    by (st; reflexivity).
  rewrite E0. clear E0.
  destruct P2 as [_ [_ P2]].
  generalize dependent (Nf * ci * cj * ck). intros nc HS P2.
  generalize dependent (E1 * T). intros N P1 HS.
  assert (Q : nc <= nc * N /\ Nf <= Nf * N /\ N <= Nf * N) by nia.
  pose proof HS as HS0. apply max_lt in HS.
  destruct (Z.ltb_spec nc (2 ^ 31)) as [A0|A0]; cbn [bind andb]; [|reflexivity].
  destruct (Z.ltb_spec N (2 ^ 31)) as [A1|A1]; cbn [bind andb]; [|reflexivity].
  rewrite Hps. destruct (Z.ltb_spec PD (2 ^ 31)) as [A2|A2]; cbn [bind andb]; [|reflexivity].
  rewrite Hst. destruct (Z.ltb_spec L (2 ^ 31)) as [A3|A3]; cbn [bind andb]; [|reflexivity].
  st. destruct (Z.ltb_spec (Nf * N) (2 ^ 31)) as [A4|A4]; cbn [bind andb]; [|reflexivity].
  stU true. cbn [bind].
  rewrite conv_id by (cbn [top]; lia). cbn [bind].
  rewrite alloc8 by lia. reflexivity.
Qed.

Lemma q_int3c2e_spinor_ok C e ip jp kp : C <> U64 -> good e -> size32 ip -> size32 jp -> size32 kp ->
  int3c2e_spinor_cache_size e ip jp kp < 2 ^ 63 ->
  q_int3c2e_spinor I32 C e ip jp kp =
  if (nc3 e * ncomp2 e * 3 <? 2 ^ 31) && (pdata_size_3c2e e ip jp kp <? 2 ^ 31) &&
     (leng e <? 2 ^ 31) && (nc3 e * ncomp2 e + nf e * 28 <? 2 ^ 31)
  then Some (conv C (int3c2e_spinor_cache_size e ip jp kp)) else None.
Proof.
  intros HC H Hip Hjp Hkp HS.
  pose proof (leng_pos e (g_g e H) (g_b e H)) as Hl.
  pose proof (fun t => store_leng t e (g_g e H) (g_b e H)) as Hst.
  destruct H as [HNf Hci Hcj Hck _ _ _ HE1 HE2 HT _ _ _]. sz.
  assert (Hpp : pos (e_pdata_3c2e I32 e ip jp kp)) by (cbn; lia).
  assert (Hps : forall t, store t (e_pdata_3c2e I32 e ip jp kp)
    = if pdata_size_3c2e e ip jp kp <? 2 ^ 31 then Some (pdata_size_3c2e e ip jp kp) else None).
  { intros t. rewrite store32; [reflexivity|reflexivity|exact Hpp]. }
  pose proof (pos_exact _ Hpp) as HP. change (exact (e_pdata_3c2e I32 e ip jp kp)) with (pdata_size_3c2e e ip jp kp) in HP.
  clear Hpp.
  unfold q_int3c2e_spinor, int3c2e_spinor_cache_size, nc3, ncomp2, OF_CMPLX in *.
  generalize dependent (pdata_size_3c2e e ip jp kp). generalize dependent (e_pdata_3c2e I32 e ip jp kp).
  generalize dependent (leng e). generalize dependent (e_leng I32 e).
  generalize dependent (nf e). generalize dependent (i_ctr e). generalize dependent (j_ctr e).
  generalize dependent (k_ctr e).
  generalize dependent (ncomp_e1 e). generalize dependent (ncomp_e2 e). generalize dependent (ncomp_tensor e).
  clear e ip jp kp Hip Hjp Hkp.
  intros T HT E2 HE2 E1 HE1 ck Hck cj Hcj ci Hci Nf HNf EL L Hl Hst PE PD HS Hps HP.
  assert (P1 : 1 <= E1 * E2 * T) by nia.
  assert (P2 := prod3 Nf ci cj ck ltac:(lia) ltac:(lia) ltac:(lia) ltac:(lia)).
  st. assert (E0 : store I32 (V I32 E1 *! V I32 E2 *! V I32 T) = if E1 * E2 * T <? 2 ^ 31 then Some (E1 * E2 * T) else None)
    by (st; reflexivity).
  rewrite E0. clear E0.
  destruct P2 as [_ [_ P2]].
  generalize dependent (Nf * ci * cj * ck). intros nc HS P2.
  generalize dependent (E1 * E2 * T). intros N P1 HS.
  assert (Q : nc <= nc * N /\ Nf <= Nf * N /\ N <= Nf * N /\ Nf * N <= nc * N) by nia.
  apply max_lt in HS.
  assert (Hn : forall x b, 2 ^ 31 <= x -> x <= nc * N -> None = if (nc * N * 3 <? 2 ^ 31) && b then Some (conv C
    (Z.max (L + Nf * N + nc * N * 3 + PD) (nc * N + Nf * 14 * 2))) else None).
  { intros x b Hx Hy. destruct (Z.ltb_spec (nc * N * 3) (2 ^ 31)); [lia|reflexivity]. }
  rewrite <- !andb_assoc.
  destruct (Z.ltb_spec nc (2 ^ 31)) as [A0|A0]; cbn [bind]; [|apply (Hn nc); lia].
  destruct (Z.ltb_spec N (2 ^ 31)) as [A1|A1]; cbn [bind]; [|apply (Hn N); lia].
  rewrite Hps. destruct (Z.ltb_spec PD (2 ^ 31)) as [A2|A2]; cbn [bind andb]; [|rewrite andb_false_r; reflexivity].
  rewrite Hst. destruct (Z.ltb_spec L (2 ^ 31)) as [A3|A3]; cbn [bind andb]; [|rewrite andb_false_r; reflexivity].
  st. destruct (Z.ltb_spec (Nf * N) (2 ^ 31)) as [A4|A4]; cbn [bind]; [|apply (Hn (Nf * N)); lia].
  stU ((nc * N * 3 <? 2 ^ 31) && (nc * N + Nf * 28 <? 2 ^ 31)).
  destruct ((nc * N * 3 <? 2 ^ 31) && (nc * N + Nf * 28 <? 2 ^ 31)); cbn [bind]; [|reflexivity].
  rewrite (conv_id U64) by (cbn [top]; lia). reflexivity.
Qed.

(** *** three-index one-electron *)
Lemma size_3c1e_ok e ip jp kp : good1 e -> size32 ip -> size32 jp -> size32 kp ->
  int3c1e_cache_size e ip jp kp < 2 ^ 63 ->
  size_3c1e I32 e ip jp kp =
  if (nc3 e * ncomp1 e * 4 <? 2 ^ 31) &&
     (ip * i_ctr e + jp * j_ctr e + kp * k_ctr e + nf e * 3 <? 2 ^ 31) &&
     (leng e <? 2 ^ 31) && (nc3 e * ncomp1 e + nf e * 3 <? 2 ^ 31)
  then Some (wrap32 (int3c1e_cache_size e ip jp kp)) else None.
Proof.
  intros H Hip Hjp Hkp HS.
  pose proof (leng_pos e (h_g e H) (h_b e H)) as Hl.
  pose proof (fun t => store_leng t e (h_g e H) (h_b e H)) as Hst.
  destruct H as [HNf Hci Hcj Hck HE1 HT _ _ _]. sz.
  unfold size_3c1e, int3c1e_cache_size, nc3, ncomp1 in *.
  generalize dependent (leng e). generalize dependent (e_leng I32 e).
  generalize dependent (nf e). generalize dependent (i_ctr e). generalize dependent (j_ctr e).
  generalize dependent (k_ctr e).
  generalize dependent (ncomp_e1 e). generalize dependent (ncomp_tensor e).
  clear e.
  intros T HT E1 HE1 ck Hck cj Hcj ci Hci Nf HNf EL L HS Hl Hst.
  assert (P1 : 1 <= E1 * T) by nia.
  assert (P2 := prod3 Nf ci cj ck ltac:(lia) ltac:(lia) ltac:(lia) ltac:(lia)).
  st. assert (E0 : store I32 (V I32 E1 *! V I32 T) = if E1 * T <? 2 ^ 31 then Some (E1 * T) else None)
    by (st; reflexivity).
  rewrite E0. clear E0.
  destruct P2 as [_ [_ P2]].
  generalize dependent (Nf * ci * cj * ck). intros nc HS P2.
  generalize dependent (E1 * T). intros N P1 HS.
  assert (Q : nc <= nc * N /\ Nf <= Nf * N /\ N <= Nf * N /\ Nf * N <= nc * N) by nia.
  assert (Q1 : 1 <= ip * ci /\ 1 <= jp * cj /\ 1 <= kp * ck) by nia.
  set (PD := ip * ci + jp * cj + kp * ck + Nf * 3) in *.
  assert (EP : store I32 (V I32 ip *! V I32 ci +! V I32 jp *! V I32 cj +! V I32 kp *! V I32 ck +! V I32 Nf *! K 3)
               = if PD <? 2 ^ 31 then Some PD else None) by (st; reflexivity).
  rewrite EP. clear EP.
  assert (HP : 1 <= PD) by (subst PD; lia). clearbody PD.
  apply max_lt in HS.
  rewrite <- !andb_assoc.
  assert (Hn : forall x b y, 2 ^ 31 <= x -> x <= nc * N -> None = if (nc * N * 4 <? 2 ^ 31) && b then Some y else @None Z).
  { intros x b y Hx Hy. destruct (Z.ltb_spec (nc * N * 4) (2 ^ 31)); [lia|reflexivity]. }
  destruct (Z.ltb_spec nc (2 ^ 31)) as [A0|A0]; cbn [bind]; [|apply (Hn nc); lia].
  destruct (Z.ltb_spec N (2 ^ 31)) as [A1|A1]; cbn [bind]; [|apply (Hn N); lia].
  destruct (Z.ltb_spec PD (2 ^ 31)) as [A2|A2]; cbn [bind andb]; [|rewrite andb_false_r; reflexivity].
  rewrite Hst. destruct (Z.ltb_spec L (2 ^ 31)) as [A3|A3]; cbn [bind andb]; [|rewrite andb_false_r; reflexivity].
  st. destruct (Z.ltb_spec (Nf * N) (2 ^ 31)) as [A4|A4]; cbn [bind]; [|apply (Hn (Nf * N)); lia].
  stU ((nc * N * 4 <? 2 ^ 31) && (nc * N + Nf * 3 <? 2 ^ 31)).
  reflexivity.
Qed.

(** *** four-index one-electron *)
Lemma q_int4c1e_ok C e ip jp kp lp : C <> U64 -> good e -> size32 ip -> size32 jp -> size32 kp -> size32 lp ->
  int4c1e_cache_size e ip jp kp lp < 2 ^ 63 ->
  q_int4c1e I32 C e ip jp kp lp =
  if (nc4 e <? 2 ^ 31) && (ncomp2 e <? 2 ^ 31) &&
     (ip * i_ctr e + jp * j_ctr e + kp * k_ctr e + lp * l_ctr e + nf e * 3 <? 2 ^ 31) &&
     (leng e <? 2 ^ 31) && (nf e * ncomp2 e <? 2 ^ 31) && (nf e * 64 <? 2 ^ 31) &&
     match C with I32 => leng e + nf e * ncomp2 e <? 2 ^ 31 | _ => true end
  then Some (conv C (int4c1e_cache_size e ip jp kp lp)) else None.
Proof.
  intros HC H Hip Hjp Hkp Hlp HS.
  pose proof (leng_pos e (g_g e H) (g_b e H)) as Hl.
  pose proof (fun t => store_leng t e (g_g e H) (g_b e H)) as Hst.
  destruct H as [HNf Hci Hcj Hck Hcl _ _ HE1 HE2 HT _ _ _]. sz.
  unfold q_int4c1e, int4c1e_cache_size, nc4, ncomp2, OF_CMPLX in *.
  generalize dependent (leng e). generalize dependent (e_leng I32 e).
  generalize dependent (nf e). generalize dependent (i_ctr e). generalize dependent (j_ctr e).
  generalize dependent (k_ctr e). generalize dependent (l_ctr e).
  generalize dependent (ncomp_e1 e). generalize dependent (ncomp_e2 e). generalize dependent (ncomp_tensor e).
  clear e.
  intros T HT E2 HE2 E1 HE1 cl Hcl ck Hck cj Hcj ci Hci Nf HNf EL L HS Hl Hst.
  assert (P1 : 1 <= E1 * E2 * T) by (clear - HE1 HE2 HT; nia).
  assert (P2 := prod3 Nf ci cj ck ltac:(lia) ltac:(lia) ltac:(lia) ltac:(lia)).
  assert (P3 : 1 <= Nf * ci * cj * ck * cl) by (apply mul_pos; lia).
  st. assert (E0 : store I32 (V I32 E1 *! V I32 E2 *! V I32 T) = if E1 * E2 * T <? 2 ^ 31 then Some (E1 * E2 * T) else None)
    by (st; reflexivity).
  rewrite E0. clear E0. clear P2.
  generalize dependent (Nf * ci * cj * ck * cl). intros nc HS P2.
  generalize dependent (E1 * E2 * T). intros N P1 HS.
  assert (Q := q3 nc Nf N ltac:(lia) ltac:(lia) ltac:(lia)).
  assert (Q1 : 1 <= ip * ci /\ 1 <= jp * cj /\ 1 <= kp * ck /\ 1 <= lp * cl) by (repeat split; apply mul_pos; lia).
  set (PD := ip * ci + jp * cj + kp * ck + lp * cl + Nf * 3) in *.
  assert (EP : store I32 (V I32 ip *! V I32 ci +! V I32 jp *! V I32 cj +! V I32 kp *! V I32 ck
                          +! V I32 lp *! V I32 cl +! V I32 Nf *! K 3)
               = if PD <? 2 ^ 31 then Some PD else None) by (st; reflexivity).
  rewrite EP. clear EP.
  assert (HP : 1 <= PD) by (subst PD; lia). clearbody PD.
  apply max_lt in HS.
  destruct (Z.ltb_spec nc (2 ^ 31)) as [A0|A0]; cbn [bind andb]; [|reflexivity].
  destruct (Z.ltb_spec N (2 ^ 31)) as [A1|A1]; cbn [bind andb]; [|reflexivity].
  destruct (Z.ltb_spec PD (2 ^ 31)) as [A2|A2]; cbn [bind andb]; [|reflexivity].
  rewrite Hst. destruct (Z.ltb_spec L (2 ^ 31)) as [A3|A3]; cbn [bind andb]; [|reflexivity].
  st. destruct (Z.ltb_spec (Nf * N) (2 ^ 31)) as [A4|A4]; cbn [bind andb]; [|reflexivity].
  destruct C; [| |congruence].
  - stU ((Nf * 64 <? 2 ^ 31) && (L + Nf * N <? 2 ^ 31)). reflexivity.
  - stU ((Nf * 64 <? 2 ^ 31) && true). reflexivity.
Qed.

(** *** grids *)
Lemma q_grids_ok C e ngrids ip jp : C <> U64 -> good1 e -> size32 ngrids -> size32 ip -> size32 jp ->
  nrys_roots e < 1000 -> int1e_grids_cache_size e ngrids ip jp < 2 ^ 63 ->
  q_grids I32 C e ngrids ip jp =
  if (ngrids * nf e * i_ctr e * j_ctr e * ncomp1 e <? 2 ^ 31) &&
     (ip * jp * 5 + ip * i_ctr e + jp * j_ctr e + (ip + jp) * 2 + nf e * 3 <? 2 ^ 31) &&
     (leng e <? 2 ^ 31) && (104 * nf e * ncomp1 e <? 2 ^ 31) &&
     (ngrids * nf e * i_ctr e * j_ctr e * ncomp1 e + 104 * nf e * 16 <? 2 ^ 31)
  then Some (conv C (int1e_grids_cache_size e ngrids ip jp)) else None.
Proof.
  intros HC H Hng Hip Hjp Hnr HS.
  pose proof (leng_pos e (h_g e H) (h_b e H)) as Hl.
  pose proof (fun t => store_leng t e (h_g e H) (h_b e H)) as Hst.
  destruct H as [HNf Hci Hcj Hck HE1 HT _ Hr0 _]. sz.
  unfold q_grids, int1e_grids_cache_size, ncomp1, OF_CMPLX, GRID_BLKSIZE in *. cbv zeta in *.
  generalize dependent (leng e). generalize dependent (e_leng I32 e).
  generalize dependent (nrys_roots e).
  generalize dependent (nf e). generalize dependent (i_ctr e). generalize dependent (j_ctr e).
  generalize dependent (ncomp_e1 e). generalize dependent (ncomp_tensor e).
  clear e Hck.
  intros T HT E1 HE1 cj Hcj ci Hci Nf HNf NR Hnr Hr0 EL L HS Hl Hst.
  assert (P1 : 1 <= E1 * T) by (apply mul_pos; lia).
  assert (P2 : 1 <= ngrids * Nf /\ Nf <= ngrids * Nf * ci * cj /\ 1 <= ngrids * Nf * ci).
  { pose proof (mul_le ngrids Nf ltac:(lia) ltac:(lia)).
    pose proof (mul_le (ngrids * Nf) ci ltac:(lia) ltac:(lia)).
    pose proof (mul_le (ngrids * Nf * ci) cj ltac:(lia) ltac:(lia)). lia. }
  st. assert (E0 : store I32 (V I32 E1 *! V I32 T) = if E1 * T <? 2 ^ 31 then Some (E1 * T) else None)
    by (st; reflexivity).
  rewrite E0. clear E0.
  destruct P2 as [_ [P2 _]].
  generalize dependent (ngrids * Nf * ci * cj). intros nc HS P2.
  generalize dependent (E1 * T). intros N P1 HS.
  assert (Q := q4 nc Nf N ltac:(lia) ltac:(lia) ltac:(lia)).
  assert (Q1 : 1 <= ip * jp /\ 1 <= ip * ci /\ 1 <= jp * cj) by (repeat split; apply mul_pos; lia).
  set (PD := ip * jp * 5 + ip * ci + jp * cj + (ip + jp) * 2 + Nf * 3) in *.
  assert (EP : store I32 (V I32 ip *! V I32 jp *! K 5 +! V I32 ip *! V I32 ci +! V I32 jp *! V I32 cj
                          +! (V I32 ip +! V I32 jp) *! K 2 +! V I32 Nf *! K 3)
               = if PD <? 2 ^ 31 then Some PD else None) by (st; reflexivity).
  rewrite EP. clear EP.
  assert (HP : 1 <= PD) by (subst PD; lia). clearbody PD.
  assert (HS' : Z.max (nc * N + L + 104 * Nf * N + 104 * Nf * N * ci + 104 * Nf * N * ci * cj + PD +
            104 * Z.max N (NR + 10)) (nc * N + 104 * Nf * 8 * 2) < 2 ^ 63 - 32) by lia.
  apply max_lt in HS'.
  rewrite <- !andb_assoc.
  assert (Hn : forall x b y, 2 ^ 31 <= x -> x <= nc * N -> None = if (nc * N <? 2 ^ 31) && b then Some y else @None Z).
  { intros x b y Hx Hy. destruct (Z.ltb_spec (nc * N) (2 ^ 31)); [lia|reflexivity]. }
  destruct (Z.ltb_spec nc (2 ^ 31)) as [A0|A0]; cbn [bind]; [|apply (Hn nc); lia].
  destruct (Z.ltb_spec N (2 ^ 31)) as [A1|A1]; cbn [bind]; [|apply (Hn N); lia].
  destruct (Z.ltb_spec PD (2 ^ 31)) as [A2|A2]; cbn [bind andb]; [|rewrite andb_false_r; reflexivity].
  rewrite Hst. destruct (Z.ltb_spec L (2 ^ 31)) as [A3|A3]; cbn [bind andb]; [|rewrite andb_false_r; reflexivity].
  assert (R0 : 1 <= 104 * Nf * N) by lia.
  destruct (mul_le (104 * Nf * N) ci ltac:(lia) ltac:(lia)) as [R1 _].
  destruct (mul_le (104 * Nf * N * ci) cj ltac:(lia) ltac:(lia)) as [R2 _].
  st. destruct (Z.ltb_spec (104 * Nf * N) (2 ^ 31)) as [A4|A4]; cbn [bind andb]; [|rewrite andb_false_r; reflexivity].
  assert (E1' : store U64 (V U64 (104 * Nf * N) *! V I32 ci) = Some (104 * Nf * N * ci)).
  { rewrite store_ok; [|cbn [pos top]; repeat split; lia|cbn [exact]; lia].
    cbn [fits_all ty_of common signed negb orb andb exact]. rewrite conv_id by (cbn [top]; lia). reflexivity. }
  assert (E2' : store U64 (V U64 (104 * Nf * N * ci) *! V I32 cj) = Some (104 * Nf * N * ci * cj)).
  { rewrite store_ok; [|cbn [pos top]; repeat split; lia|cbn [exact]; lia].
    cbn [fits_all ty_of common signed negb orb andb exact]. rewrite conv_id by (cbn [top]; lia). reflexivity. }
  rewrite E1'. cbn [bind]. rewrite E2'. cbn [bind]. clear E1' E2'.
  assert (R3 : N <= Nf * N) by lia.
  assert (R4 : 104 * Nf * N = 104 * (Nf * N)) by ring.
  generalize dependent (104 * Nf * N * ci * cj). generalize dependent (104 * Nf * N * ci).
  generalize dependent (104 * Nf * N).
  intros l0 R0 A4 R4 l1 R1 l2 HS HS' R2.
  stU ((nc * N <? 2 ^ 31) && (nc * N + 104 * Nf * 16 <? 2 ^ 31)).
  destruct ((nc * N <? 2 ^ 31) && (nc * N + 104 * Nf * 16 <? 2 ^ 31)); cbn [bind]; [|reflexivity].
  rewrite (conv_id U64) by (cbn [top]; lia).
  rewrite ev_ok; [|cbn [pos top]; repeat split; lia|cbn [exact]; lia].
  cbn [fits_all ty_of common signed negb orb andb exact bind]. reflexivity.
Qed.

(** *** four-index spinors *)
Lemma size_2e_spinor_ok e ni nj ip jp kp lp : good e ->
  size32 ni -> size32 nj -> size32 ip -> size32 jp -> size32 kp -> size32 lp ->
  let n1 := ni * nfk e * k_ctr e * nfl e * l_ctr e * nj in
  let S := Z.max (leng e + nf e * ncomp2 e + nc4 e * ncomp2 e * 3 + pdata_size_2e e ip jp kp lp)
                 (nc4 e * ncomp2 e + n1 * ncomp_e2 e * 2 + nf e * 32 * 2) in
  S < 2 ^ 64 ->
  size_2e_spinor I32 e ni nj ip jp kp lp =
  if (ncomp2 e <? 2 ^ 31) && (prims_2e e ip jp kp lp <? 2 ^ 31) && (leng e <? 2 ^ 31)
     && (n1 * ncomp_e2 e * 2 <? 2 ^ 31)
  then Some S else None.
Proof.
  intros H Hni Hnj Hip Hjp Hkp Hlp n1 S HS.
  pose proof (leng_pos e (g_g e H) (g_b e H)) as Hl.
  pose proof (fun t => store_leng t e (g_g e H) (g_b e H)) as Hst.
  destruct H as [HNf Hci Hcj Hck Hcl Hnfk Hnfl HE1 HE2 HT _ _ _]. sz.
  assert (EPD : pdata_size_2e e ip jp kp lp = prims_2e e ip jp kp lp + nf e * 3).
  { unfold pdata_size_2e, prims_2e. lia. }
  assert (Hpp : pos (e_prims_2e I32 e ip jp kp lp)) by (cbn; lia).
  assert (Hpe : pure32 (e_prims_2e I32 e ip jp kp lp) = true) by reflexivity.
  assert (Hpx : exact (e_prims_2e I32 e ip jp kp lp) = prims_2e e ip jp kp lp) by reflexivity.
  pose proof (pos_exact _ Hpp) as HPR. rewrite Hpx in HPR.
  assert (En : store I32 (V I32 ni *! V I32 (nfk e) *! V I32 (k_ctr e) *! V I32 (nfl e) *! V I32 (l_ctr e) *! V I32 nj)
    = if n1 <? 2 ^ 31 then Some n1 else None) by (st; reflexivity).
  assert (Hn1 : 1 <= n1) by (unfold n1; repeat apply mul_pos; lia).
  subst S. unfold size_2e_spinor, nc4, ncomp2, e_pdata_2e, OF_CMPLX in *.
  rewrite EPD in *. clear EPD. clearbody n1.
  generalize dependent (prims_2e e ip jp kp lp). generalize dependent (e_prims_2e I32 e ip jp kp lp).
  generalize dependent (leng e). generalize dependent (e_leng I32 e).
  rewrite En. clear En.
  generalize dependent (nf e). generalize dependent (i_ctr e). generalize dependent (j_ctr e).
  generalize dependent (k_ctr e). generalize dependent (l_ctr e).
  generalize dependent (ncomp_e1 e). generalize dependent (ncomp_e2 e). generalize dependent (ncomp_tensor e).
  clear Hnfk Hnfl e ip jp kp lp Hip Hjp Hkp Hlp Hni Hnj.
  intros T HT E2 HE2 E1 HE1 cl Hcl ck Hck cj Hcj ci Hci Nf HNf EL L Hl Hst PE Hpp Hpe PR HS Hpx HPR.
  assert (P1 : 1 <= E1 * E2 * T) by (repeat apply mul_pos; lia).
  assert (P2 : 1 <= Nf * ci /\ 1 <= Nf * ci * cj) by (split; repeat apply mul_pos; lia).
  assert (P3 : 1 <= Nf * ci * cj * ck /\ 1 <= Nf * ci * cj * ck * cl) by (split; repeat apply mul_pos; lia).
  assert (E0 : store I32 (V I32 E1 *! V I32 E2 *! V I32 T) = if E1 * E2 * T <? 2 ^ 31 then Some (E1 * E2 * T) else None)
    by (st; reflexivity).
  assert (E3 : Nf * ci * cj * ck * cl < 2 ^ 64 ->
     store U64 (V U64 Nf *! V I32 ci *! V I32 cj *! V I32 ck *! V I32 cl) = Some (Nf * ci * cj * ck * cl)).
  { intros Hb. rewrite store_ok; [|cbn [pos top]; repeat split; lia|cbn [exact]; exact Hb].
    cbn [fits_all ty_of common signed negb orb andb exact]. rewrite conv_id; [reflexivity|cbn [top]; lia]. }
  rewrite store32; [|reflexivity|cbn; lia]. cbn [exact].
  replace (Nf <? 2 ^ 31) with true by lia. cbn [bind].
  rewrite E0. clear E0.
  generalize dependent (Nf * ci * cj * ck * cl). intros nc HS P3 E3.
  generalize dependent (E1 * E2 * T). intros N P1 HS. clear P2 HE1 HT Hci Hcj Hck Hcl.
  assert (Q := q3 nc Nf N ltac:(lia) ltac:(lia) ltac:(lia)).
  assert (Q' := mul_le n1 E2 ltac:(lia) ltac:(lia)).
  pose proof (max_lt _ _ _ HS) as HSA.
  rewrite E3 by lia. cbn [bind].
  destruct (Z.ltb_spec N (2 ^ 31)) as [A1|A1]; cbn [bind andb]; [|reflexivity].
  assert (Hno : forall b (y : Z), 2 ^ 31 <= n1 -> None = if b && (n1 * E2 * 2 <? 2 ^ 31) then Some y else None).
  { intros b y Hx. destruct (Z.ltb_spec (n1 * E2 * 2) (2 ^ 31)); [lia|]. rewrite andb_false_r. reflexivity. }
  destruct (Z.ltb_spec n1 (2 ^ 31)) as [A0|A0]; cbn [bind]; [|apply Hno; exact A0]. clear Hno.
  rewrite store_ok; [|cbn [pos top]; repeat split; try assumption; lia|cbn [exact]; lia].
  cbn [fits_all ty_of common signed negb orb andb exact].
  rewrite (pure32_ty PE Hpe), (pure32_fits PE Hpe Hpp), Hpx. cbn [common signed negb orb andb].
  rewrite !andb_true_r.
  destruct (Z.ltb_spec PR (2 ^ 31)) as [A2|A2]; cbn [bind andb]; [|reflexivity].
  rewrite conv_id by (cbn [top]; lia). cbn [bind].
  rewrite Hst.
  destruct (Z.ltb_spec L (2 ^ 31)) as [A3|A3]; cbn [bind andb]; [|reflexivity].
  rewrite store_ok; [|cbn [pos top]; repeat split; lia|cbn [exact]; lia].
  cbn [fits_all ty_of common signed negb orb andb exact bind].
  rewrite conv_id by (cbn [top]; lia). cbn [bind].
  stU (n1 * E2 * 2 <? 2 ^ 31).
  rewrite conv_id by (cbn [top]; lia). reflexivity.
Qed.
