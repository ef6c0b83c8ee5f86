(** OptIdx.v — the cached index tables and the cached sparse lists. *)
From Coq Require Import ZifyBool Permutation.
From Verif Require Import Base BasModel BasSpec BasProof EnvModel IdxModel IdxSpec IdxProof CtrModel CtrSpec CtrProof OutModel OptModel OptSpec OptProof.
Ltac Zify.zify_post_hook ::= Z.div_mod_to_equations.

Lemma rd_sub' {A} (a : arr A) o i : 0 <= i -> 0 <= o -> rd (sub a o) i = rd a (o + i).
Proof.
  intros Hi Ho. unfold rd, inb, sub. cbn [asize acell].
  replace (i <? asize a - o) with (o + i <? asize a) by lia.
  replace (0 <=? o + i) with true by lia. replace (0 <=? i) with true by lia. reflexivity.
Qed.

(** ** every entry of an index table is determined *)
Lemma nth_in {A} (l : list A) i : 0 <= i < Z.of_nat (length l) -> exists v, nth_error l (Z.to_nat i) = Some v.
Proof.
  intros H. destruct (nth_error l (Z.to_nat i)) as [v|] eqn:E; [exists v; reflexivity|].
  apply nth_error_None in E. lia.
Qed.

Definition len (l : Z) : Z := Z.of_nat (length (cart_list l)).

Lemma split_digit n m x : 0 < m -> 0 <= x < n * m -> exists q r, x = q * m + r /\ 0 <= r < m /\ 0 <= q < n.
Proof. intros Hm Hx. exists (x / m), (x mod m). nia. Qed.

Definition same_upto (a b : arr Z) (n : Z) : Prop := forall x, 0 <= x < n -> rd a x = rd b x /\ exists v, rd a x = Some v.

Lemma table4_det a b li lj lk ll gs si sj sk sl : table4 a li lj lk ll gs si sj sk sl -> table4 b li lj lk ll gs si sj sk sl ->
  same_upto a b (3 * (len li * len lk * len ll * len lj)).
Proof.
  intros Ha Hb x Hx. assert (0 <= len li /\ 0 <= len lj /\ 0 <= len lk /\ 0 <= len ll) as (P1 & P2 & P3 & P4) by (unfold len; lia).
  destruct (split_digit (len li * len lk * len ll * len lj) 3 x ltac:(lia) ltac:(lia)) as (n & d & -> & Hd & Hn).
  assert (0 < len li) by nia. assert (0 < len lk) by nia. assert (0 < len ll) by nia.
  destruct (split_digit (len lj * len ll * len lk) (len li) n ltac:(lia) ltac:(lia)) as (n1 & i & -> & Hi & Hn1).
  destruct (split_digit (len lj * len ll) (len lk) n1 ltac:(lia) ltac:(lia)) as (n2 & k & -> & Hk & Hn2).
  destruct (split_digit (len lj) (len ll) n2 ltac:(lia) ltac:(lia)) as (j & l & -> & Hl & Hj).
  destruct (nth_in (cart_list li) i Hi) as [ti Ei], (nth_in (cart_list lj) j Hj) as [tj Ej],
    (nth_in (cart_list lk) k Hk) as [tk Ek], (nth_in (cart_list ll) l Hl) as [tl El].
  pose proof (Ha _ _ _ _ _ _ _ _ d Ei Ej Ek El Hd) as A. pose proof (Hb _ _ _ _ _ _ _ _ d Ei Ej Ek El Hd) as B.
  rewrite !Z2Nat.id in A, B by lia. unfold len.
  match type of A with rd _ ?u = _ => replace (((j * Z.of_nat (length (cart_list ll)) + l) * Z.of_nat (length (cart_list lk)) + k) * Z.of_nat (length (cart_list li)) + i) with
     (((j * Z.of_nat (length (cart_list ll)) + l) * Z.of_nat (length (cart_list lk)) + k) * Z.of_nat (length (cart_list li)) + i) by lia end.
  rewrite (Z.mul_comm _ 3). rewrite A, B. split; [reflexivity|eauto].
Qed.

Lemma table3_det a b li lj lk gs si sj sk : table3 a li lj lk gs si sj sk -> table3 b li lj lk gs si sj sk ->
  same_upto a b (3 * (len li * len lj * len lk)).
Proof.
  intros Ha Hb x Hx. assert (0 <= len li /\ 0 <= len lj /\ 0 <= len lk) as (P1 & P2 & P3) by (unfold len; lia).
  destruct (split_digit (len li * len lj * len lk) 3 x ltac:(lia) ltac:(lia)) as (n & d & -> & Hd & Hn).
  assert (0 < len li) by nia. assert (0 < len lj) by nia.
  destruct (split_digit (len lk * len lj) (len li) n ltac:(lia) ltac:(lia)) as (n1 & i & -> & Hi & Hn1).
  destruct (split_digit (len lk) (len lj) n1 ltac:(lia) ltac:(lia)) as (k & j & -> & Hj & Hk).
  destruct (nth_in (cart_list li) i Hi) as [ti Ei], (nth_in (cart_list lj) j Hj) as [tj Ej],
    (nth_in (cart_list lk) k Hk) as [tk Ek].
  pose proof (Ha _ _ _ _ _ _ d Ei Ej Ek Hd) as A. pose proof (Hb _ _ _ _ _ _ d Ei Ej Ek Hd) as B.
  rewrite !Z2Nat.id in A, B by lia. unfold len.
  rewrite (Z.mul_comm _ 3). rewrite A, B. split; [reflexivity|eauto].
Qed.

Lemma table2_det a b li lj gs si sj : table2 a li lj gs si sj -> table2 b li lj gs si sj ->
  same_upto a b (3 * (len li * len lj)).
Proof.
  intros Ha Hb x Hx. assert (0 <= len li /\ 0 <= len lj) as (P1 & P2) by (unfold len; lia).
  destruct (split_digit (len li * len lj) 3 x ltac:(lia) ltac:(lia)) as (n & d & -> & Hd & Hn).
  assert (0 < len li) by nia.
  destruct (split_digit (len lj) (len li) n ltac:(lia) ltac:(lia)) as (j & i & -> & Hi & Hj).
  destruct (nth_in (cart_list li) i Hi) as [ti Ei], (nth_in (cart_list lj) j Hj) as [tj Ej].
  pose proof (Ha _ _ _ _ d Ei Ej Hd) as A. pose proof (Hb _ _ _ _ d Ei Ej Hd) as B.
  rewrite !Z2Nat.id in A, B by lia. unfold len.
  rewrite (Z.mul_comm _ 3). rewrite A, B. split; [reflexivity|eauto].
Qed.

Lemma len_is l : 0 <= l -> CINTlen_cart l = len l.
Proof. intros H. unfold len. destruct (cart_list_complete l H) as (_ & _ & _ & E). symmetry. exact E. Qed.
Lemma len_pos l : 0 <= l -> 0 < len l.
Proof. intros H. unfold len. rewrite cart_list_length by exact H. nia. Qed.

(** number of functions of a batch *)
Definition kind_nf (k : kind) (l1 l2 l3 l4 : Z) : Z :=
  if kind_order k =? 2 then len l1 * len l2
  else if kind_order k =? 3 then len l1 * len l2 * len l3 else len l1 * len l2 * len l3 * len l4.

Lemma kind_nf_ok k om ng l1 l2 l3 l4 : 0 <= l1 -> 0 <= l2 -> 0 <= l3 -> 0 <= l4 ->
  nf (kind_init k om ng l1 l2 l3 l4) = kind_nf k l1 l2 l3 l4.
Proof.
  intros. unfold kind_nf. destruct k; cbn -[Z.mul]; rewrite !len_is by assumption; ring.
Qed.

(** [findex_xyz] writes exactly its 3*nf entries, and what it writes does not depend on
    what was there, nor on the numbers of contractions. *)
Lemma kind_run k om ng l1 l2 l3 l4 idx :
  ng_ok ng -> 0 <= l1 <= 15 -> 0 <= l2 <= 15 -> 0 <= l3 <= 15 -> 0 <= l4 <= 15 ->
  3 * kind_nf k l1 l2 l3 l4 <= asize idx ->
  wp (kind_index k (kind_init k om ng l1 l2 l3 l4) idx) (fun r =>
    Frame (fun x => 0 <= x < 3 * kind_nf k l1 l2 l3 l4) idx r /\
    forall f0, 3 * kind_nf k l1 l2 l3 l4 <= asize f0 ->
      exists f, kind_index k (kind_init k om ng l1 l2 l3 l4) f0 = Some f /\
        same_upto r f (3 * kind_nf k l1 l2 l3 l4)).
Proof.
  intros Hng H1 H2 H3 H4 Hs.
  assert (En := kind_nf_ok k om ng l1 l2 l3 l4 ltac:(lia) ltac:(lia) ltac:(lia) ltac:(lia)).
  set (N := kind_nf k l1 l2 l3 l4) in *. apply wp_exists.
  destruct k; cbn [kind_init kind_index] in *.
  - destruct (idx_int1e ng l1 l2 0 0 idx Hng H1 H2 ltac:(rewrite En; exact Hs)) as (r & E & T & Fr & _).
    rewrite En in Fr. exists r. split; [exact E|]. split; [exact Fr|]. intros f0 Hf.
    destruct (idx_int1e ng l1 l2 0 0 f0 Hng H1 H2 ltac:(rewrite En; exact Hf)) as (f & E' & T' & _).
    exists f. split; [exact E'|]. exact (table2_det _ _ _ _ _ _ _ T T').
  - unfold init_int2e in *. cbv zeta in *. match type of En with nf (init_4c ?a ?b _ _ _ _ _ _ _ _ _) = _ => set (nr := a) in *; set (od := b) in * end.
    destruct (idx_4c nr od ng l1 l2 l3 l4 0 0 0 0 idx Hng H1 H2 H3 H4 ltac:(rewrite En; exact Hs)) as (r & E & T & Fr & _).
    rewrite En in Fr. exists r. split; [exact E|]. split; [exact Fr|]. intros f0 Hf.
    destruct (idx_4c nr od ng l1 l2 l3 l4 0 0 0 0 f0 Hng H1 H2 H3 H4 ltac:(rewrite En; exact Hf)) as (f & E' & T' & _).
    exists f. split; [exact E'|]. replace N with (len l1 * len l3 * len l4 * len l2) by (unfold N, kind_nf; cbn [kind_order]; change (4 =? 2) with false; change (4 =? 3) with false; cbv iota; ring).
    exact (table4_det _ _ _ _ _ _ _ _ _ _ _ T T').
  - destruct (idx_int3c2e om ng l1 l2 l3 0 0 0 idx Hng H1 H2 H3 ltac:(rewrite En; exact Hs)) as (r & E & T & Fr & _).
    rewrite En in Fr. exists r. split; [exact E|]. split; [exact Fr|]. intros f0 Hf.
    destruct (idx_int3c2e om ng l1 l2 l3 0 0 0 f0 Hng H1 H2 H3 ltac:(rewrite En; exact Hf)) as (f & E' & T' & _).
    exists f. split; [exact E'|]. replace N with (len l1 * len l3 * len 0 * len l2) by (change (len 0) with 1; unfold N, kind_nf; cbn [kind_order]; change (3 =? 2) with false; change (3 =? 3) with true; cbv iota; ring).
    exact (table4_det _ _ _ _ _ _ _ _ _ _ _ T T').
  - destruct (idx_int2c2e om ng l1 l2 0 0 idx Hng H1 H2 ltac:(rewrite En; exact Hs)) as (r & E & T & Fr & _).
    rewrite En in Fr. exists r. split; [exact E|]. split; [exact Fr|]. intros f0 Hf.
    destruct (idx_int2c2e om ng l1 l2 0 0 f0 Hng H1 H2 ltac:(rewrite En; exact Hf)) as (f & E' & T' & _).
    exists f. split; [exact E'|]. exact (table2_det _ _ _ _ _ _ _ T T').
  - destruct (idx_int3c1e ng l1 l2 l3 0 0 0 idx Hng H1 H2 H3 ltac:(rewrite En; exact Hs)) as (r & E & T & Fr & _).
    rewrite En in Fr. exists r. split; [exact E|]. split; [exact Fr|]. intros f0 Hf.
    destruct (idx_int3c1e ng l1 l2 l3 0 0 0 f0 Hng H1 H2 H3 ltac:(rewrite En; exact Hf)) as (f & E' & T' & _).
    exists f. split; [exact E'|]. exact (table3_det _ _ _ _ _ _ _ _ _ T T').
  - destruct (idx_int1e_grids om ng l1 l2 0 0 idx Hng H1 H2 ltac:(rewrite En; exact Hs)) as (r & E & T & Fr & _).
    rewrite En in Fr. exists r. split; [exact E|]. split; [exact Fr|]. intros f0 Hf.
    destruct (idx_int1e_grids om ng l1 l2 0 0 f0 Hng H1 H2 ltac:(rewrite En; exact Hf)) as (f & E' & T' & _).
    exists f. split; [exact E'|]. exact (table2_det _ _ _ _ _ _ _ T T').
  - unfold init_int2e_yp in *. cbv zeta in *. match type of En with nf (init_4c ?a ?b _ _ _ _ _ _ _ _ _) = _ => set (nr := a) in * end.
    destruct (idx_4c nr 0 ng l1 l2 l3 l4 0 0 0 0 idx Hng H1 H2 H3 H4 ltac:(rewrite En; exact Hs)) as (r & E & T & Fr & _).
    rewrite En in Fr. exists r. split; [exact E|]. split; [exact Fr|]. intros f0 Hf.
    destruct (idx_4c nr 0 ng l1 l2 l3 l4 0 0 0 0 f0 Hng H1 H2 H3 H4 ltac:(rewrite En; exact Hf)) as (f & E' & T' & _).
    exists f. split; [exact E'|]. replace N with (len l1 * len l3 * len l4 * len l2) by (unfold N, kind_nf; cbn [kind_order]; change (4 =? 2) with false; change (4 =? 3) with false; cbv iota; ring).
    exact (table4_det _ _ _ _ _ _ _ _ _ _ _ T T').
Qed.

(** ** the loops of gen_idx *)
Definition quad : Type := (Z * Z * Z * Z)%type.

Section Gen.
  Variables (k : kind) (om : bool) (ng : ngT).
  Hypothesis Hng : ng_ok ng.
  Definition kenv (q : quad) : envs := let '(i, j, kk, l) := q in kind_init k om ng i j kk l.
  Definition knf (q : quad) : Z := let '(i, j, kk, l) := q in kind_nf k i j kk l.
  Definition qpos (q : quad) : Z :=
    let '(i, j, kk, l) := q in
    if kind_order k =? 2 then i * 16 + j
    else if kind_order k =? 3 then i * 16 * 16 + j * 16 + kk
    else i * 16 * 16 * 16 + j * 16 * 16 + kk * 16 + l.
  Definition qok (q : quad) : Prop :=
    let '(i, j, kk, l) := q in 0 <= i <= 15 /\ 0 <= j <= 15 /\ 0 <= kk <= 15 /\ 0 <= l <= 15.

  (** the table of [q] is at its place and is what [findex_xyz] computes *)
  Definition cached (t : arr ptr) (b : arr Z) (hi : Z) (q : quad) : Prop :=
    exists o, rd t (qpos q) = Some (Off o) /\ 0 <= o /\ o + 3 * knf q <= hi /\
      forall f0, 3 * knf q <= asize f0 -> exists f, kind_index k (kenv q) f0 = Some f /\
        forall x, 0 <= x < 3 * knf q -> rd b (o + x) = rd f x /\ exists v, rd f x = Some v.

  Variables (ll cc : Z).
  Definition gen_inv (P : quad -> Prop) (o : Z) (s : arr ptr * arr Z * Z) : Prop :=
    let '(t, b, o') := s in
    o' = o /\ 0 <= o /\ asize t = ll /\ asize b = cc /\ rd t 0 = Some (Off 0) /\
    (forall q, P q -> cached t b o q) /\
    (forall p, 0 < p < ll -> (forall q, P q -> qpos q <> p) -> rd t p = Some Null).

  Lemma gen_step_ok P o s q : gen_inv P o s -> qok q -> (forall q', P q' -> qpos q' <> qpos q) ->
    0 <= qpos q < ll -> (qpos q = 0 -> o = 0) -> o + 3 * knf q <= cc ->
    wp (gen_step k (kenv q) (qpos q) s) (gen_inv (fun q' => P q' \/ q' = q) (o + 3 * knf q)).
  Proof.
    intros HI Hq Hf Hp Hz Hr. destruct s as [[t b] o']. destruct HI as (-> & Ho & St & Sb & Z0 & Ca & Nu).
    assert (Hnf : 0 < knf q).
    { destruct q as [[[i j] kk] l]. destruct Hq as (? & ? & ? & ?). unfold knf, kind_nf.
      pose proof (len_pos i ltac:(lia)). pose proof (len_pos j ltac:(lia)). pose proof (len_pos kk ltac:(lia)). pose proof (len_pos l ltac:(lia)).
      destruct (kind_order k =? 2); [nia|]. destruct (kind_order k =? 3); [assert (0 < len i * len j) by nia; nia|].
      assert (0 < len i * len j) by nia. assert (0 < len i * len j * len kk) by nia. nia. }
    unfold gen_step. apply wp_bind. apply wp_wr'; [lia|]. intros t' E Fr.
    apply wp_bind. unfold onsub. apply wp_bind.
    assert (Hrun : wp (kind_index k (kenv q) (sub b o)) (fun r =>
      Frame (fun x => 0 <= x < 3 * knf q) (sub b o) r /\
      forall f0, 3 * knf q <= asize f0 -> exists f, kind_index k (kenv q) f0 = Some f /\ same_upto r f (3 * knf q))).
    { destruct q as [[[i j] kk] l]. destruct Hq as (? & ? & ? & ?). apply kind_run; try assumption.
      cbn [asize sub]. cbn [knf] in Hr. lia. }
    eapply wp_mono; [exact Hrun|]. intros r [Frr Fresh]. cbn [wp].
    assert (Hnf' : nf (kenv q) * 3 = 3 * knf q).
    { destruct q as [[[i j] kk] l]. destruct Hq as (? & ? & ? & ?). cbn [kenv knf]. rewrite kind_nf_ok by lia. ring. }
    unfold gen_inv. split; [lia|]. split; [lia|]. split; [destruct Fr; lia|]. split; [exact Sb|].
    assert (Hb : forall x, 0 <= x < o -> rd (splice b o r) x = rd b x).
    { intros x Hx. unfold rd, inb, splice. cbn [asize acell]. replace (o <=? x) with false by lia. reflexivity. }
    assert (Hb' : forall x, 0 <= x < 3 * knf q -> rd (splice b o r) (o + x) = rd r x).
    { intros x Hx. destruct Frr as [S1 _]. unfold rd, inb, splice. cbn [asize acell]. cbn [asize sub] in S1.
      replace (o <=? o + x) with true by lia. replace (o + x - o) with x by lia.
      replace (o + x <? asize b) with true by lia. replace (x <? asize r) with true by lia.
      replace (0 <=? o + x) with true by lia. replace (0 <=? x) with true by lia. reflexivity. }
    split; [|split].
    - destruct (Z.eq_dec (qpos q) 0) as [E0|N]; [rewrite <- E0 at 1; rewrite E, (Hz E0); reflexivity|].
      eapply rd_frame; [exact Fr|cbv beta; lia|exact Z0].
    - intros q' [Pq| ->].
      + destruct (Ca q' Pq) as (o1 & C1 & C2 & C3 & C4). exists o1. split; [|split; [exact C2|split; [lia|]]].
        * eapply rd_frame; [exact Fr|cbv beta; apply Hf; exact Pq|exact C1].
        * intros f0 Hf0. destruct (C4 f0 Hf0) as (f & D1 & D2). exists f. split; [exact D1|]. intros x Hx.
          rewrite Hb by lia. apply D2, Hx.
      + exists o. split; [exact E|]. split; [exact Ho|]. split; [lia|]. intros f0 Hf0. destruct (Fresh f0 Hf0) as (f & D1 & D2).
        exists f. split; [exact D1|]. intros x Hx. rewrite Hb' by exact Hx. destruct (D2 x Hx) as [U1 U2]. rewrite U1 in *. split; [reflexivity|exact U2].
    - intros p Hp' Hne. eapply rd_frame; [exact Fr|cbv beta; intros ->; apply (Hne q); auto|].
      apply Nu; [exact Hp'|]. intros q' Pq. apply Hne. left. exact Pq.
  Qed.

  Lemma gen_inv_iff (P P' : quad -> Prop) o o' s : gen_inv P o s -> (forall q, P' q <-> P q) -> o' = o -> gen_inv P' o' s.
  Proof.
    intros HI HP ->. destruct s as [[t b] o1]. destruct HI as (H1 & H2 & H3 & H4 & H5 & H6 & H7).
    repeat (split; [assumption|]). split; [intros q Hq; apply H6, HP, Hq|].
    intros p Hp Hn. apply H7; [exact Hp|]. intros q Hq. apply Hn, HP, Hq.
  Qed.
End Gen.

(** ** how many functions there are up to a given angular momentum *)
Definition cum (n : Z) : Z := Zsum n len.

Lemma cum_closed n : 0 <= n -> 6 * cum n = n * (n + 1) * (n + 2).
Proof.
  intros Hn. pattern n. apply natlike_ind; [reflexivity| |exact Hn].
  intros x Hx IH. unfold Z.succ, cum in *. rewrite Zsum_succ by exact Hx.
  assert (E : 2 * len x = (x + 1) * (x + 2)) by (unfold len; rewrite cart_list_length by exact Hx; nia). nia.
Qed.
Lemma cum_0 : cum 0 = 0. Proof. reflexivity. Qed.
Lemma cum_succ n : 0 <= n -> cum (n + 1) = cum n + len n.
Proof. intros H. unfold cum. apply Zsum_succ. exact H. Qed.
Lemma cum_nonneg n : 0 <= cum n.
Proof. apply Zsum_nonneg. intros k Hk. pose proof (len_pos k ltac:(lia)). lia. Qed.
Lemma cum_next i n : 0 <= i < n -> cum i + len i <= cum n.
Proof. intros H. apply Zsum_next; [exact H|]. intros k Hk. pose proof (len_pos k ltac:(lia)). lia. Qed.

Lemma room_step T c l r R : 0 <= c -> 0 < l -> c + l <= T -> 0 <= r <= R -> c * R + l * r <= T * R.
Proof. intros. nia. Qed.

Lemma quot6 a : 0 <= a -> Z.quot (6 * a) 6 = a.
Proof. intros H. rewrite Z.quot_div_nonneg by lia. rewrite Z.mul_comm, Z.div_mul; lia. Qed.

Lemma index_sizes max_l L order : 0 <= L ->
  index_xyz_sizes max_l L order = ((max_l + 1) * 16 ^ (order - 1), 3 * cum (L + 1) ^ order).
Proof.
  intros HL. unfold index_xyz_sizes, LMAX1. f_equal. f_equal. f_equal.
  replace ((L + 1) * (L + 2) * (L + 3)) with (6 * cum (L + 1)) by (rewrite cum_closed by lia; ring).
  apply quot6. apply cum_nonneg.
Qed.

Section GenLoops.
  Variables (k : kind) (om : bool) (ng : ngT) (max_l : Z) (fs : Z -> option Z).
  Hypothesis Hng : ng_ok ng.
  Hypothesis Hml : 0 <= max_l <= 15.
  Hypothesis Hfs : forall i, 0 <= i <= max_l -> fs i = Some i.
  Let L := Z.min max_l (kind_lallow k).
  Let T := cum (L + 1).
  Let ll := (max_l + 1) * 16 ^ (kind_order k - 1).
  Let cc := 3 * T ^ kind_order k.

  Lemma L_range : 0 <= L <= max_l.
  Proof. clear fs Hng Hfs. unfold L, kind_lallow, ANG_MAX. destruct k; lia. Qed.

  Lemma cum_T i : 0 <= i <= L -> cum i + len i <= T.
  Proof. intros H. unfold T. apply cum_next. lia. Qed.

  (** all batches that get a table *)
  Definition all_quads (q : quad) : Prop :=
    let '(i, j, kk, l) := q in 0 <= i <= L /\ 0 <= j <= L /\
      (if kind_order k =? 2 then kk = 0 else 0 <= kk <= L) /\
      (if kind_order k =? 4 then 0 <= l <= L else l = 0).

  Lemma T4 i j kk l : 0 <= i <= L -> 0 <= j <= L -> 0 <= kk <= L -> 0 <= l <= L ->
    cum i * (T * T * T) + len i * (cum j * (T * T) + len j * (cum kk * T + len kk * (cum l + len l))) <= T * (T * T * T).
  Proof.
    intros Hi Hj Hk Hl.
    pose proof (cum_nonneg i). pose proof (cum_nonneg j). pose proof (cum_nonneg kk). pose proof (cum_nonneg l).
    pose proof (len_pos i ltac:(lia)). pose proof (len_pos j ltac:(lia)). pose proof (len_pos kk ltac:(lia)). pose proof (len_pos l ltac:(lia)).
    pose proof (cum_T i ltac:(lia)). pose proof (cum_T j ltac:(lia)).
    pose proof (cum_T kk ltac:(lia)). pose proof (cum_T l ltac:(lia)).
    assert (A : 0 <= cum kk * T + len kk * (cum l + len l) <= T * T) by (split; [nia|apply room_step; lia]).
    assert (B : 0 <= cum j * (T * T) + len j * (cum kk * T + len kk * (cum l + len l)) <= T * (T * T)).
    { split; [|apply room_step; lia]. set (u := cum kk * T + len kk * (cum l + len l)) in *. nia. }
    replace (T * (T * T * T)) with (T * (T * (T * T))) by ring. replace (T * T * T) with (T * (T * T)) by ring.
    apply room_step; lia.
  Qed.

  Definition pos4 (q : quad) : Z := let '(i, j, kk, l) := q in i * 16 * 16 * 16 + j * 16 * 16 + kk * 16 + l.
  Definition bef4 (i j kk l : Z) (q : quad) : Prop :=
    let '(i', j', k', l') := q in 0 <= i' <= L /\ 0 <= j' <= L /\ 0 <= k' <= L /\ 0 <= l' <= L /\
      (i' < i \/ i' = i /\ (j' < j \/ j' = j /\ (k' < kk \/ k' = kk /\ l' < l))).
  Definition off4 (i j kk l : Z) : Z :=
    3 * (cum i * (T * T * T) + len i * (cum j * (T * T) + len j * (cum kk * T + len kk * cum l))).

  Lemma loop4 s : kind_order k = 4 -> gen_inv k om ng ll cc (fun _ => False) 0 s ->
    wp (for_ 0 (L + 1) (fun i s => for_ 0 (L + 1) (fun j s =>
        for_ 0 (L + 1) (fun kk s => for_ 0 (L + 1) (fun l s =>
          li <- fs i ;; lj <- fs j ;; lk <- fs kk ;; l4 <- fs l ;;
          gen_step k (kind_init k om ng li lj lk l4)
            (i * LMAX1 * LMAX1 * LMAX1 + j * LMAX1 * LMAX1 + kk * LMAX1 + l) s) s) s) s) s)
       (gen_inv k om ng ll cc all_quads cc).
  Proof.
    intros Ho HI. pose proof L_range as HL. assert (Tpos : 0 <= T) by apply cum_nonneg.
    assert (HT : T = cum L + len L) by (unfold T; apply cum_succ; lia).
    assert (Hcc : cc = 3 * (T * (T * T * T))) by (unfold cc; rewrite Ho; ring).
    assert (Hll : ll = (max_l + 1) * 4096) by (unfold ll; rewrite Ho; reflexivity).
    apply (wp_for (fun i s => gen_inv k om ng ll cc (bef4 i 0 0 0) (off4 i 0 0 0) s)); [lia| | |].
    - eapply gen_inv_iff; [exact HI| |unfold off4; rewrite !cum_0; ring].
      intros [[[i j] kk] l]. unfold bef4. lia.
    - clear s HI. intros i s Hi HI.
      apply (wp_for (fun j s => gen_inv k om ng ll cc (bef4 i j 0 0) (off4 i j 0 0) s)); [lia|exact HI| |].
      2:{ intros s' HI'. eapply gen_inv_iff; [exact HI'| |].
          - intros [[[i' j'] k'] l']. unfold bef4. lia.
          - unfold off4. rewrite cum_succ, !cum_0 by lia. fold T. ring. }
      clear s HI. intros j s Hj HI.
      apply (wp_for (fun kk s => gen_inv k om ng ll cc (bef4 i j kk 0) (off4 i j kk 0) s)); [lia|exact HI| |].
      2:{ intros s' HI'. eapply gen_inv_iff; [exact HI'| |].
          - intros [[[i' j'] k'] l']. unfold bef4. lia.
          - unfold off4. rewrite (cum_succ j), !cum_0 by lia. fold T. ring. }
      clear s HI. intros kk s Hk HI.
      apply (wp_for (fun l s => gen_inv k om ng ll cc (bef4 i j kk l) (off4 i j kk l) s)); [lia|exact HI| |].
      2:{ intros s' HI'. eapply gen_inv_iff; [exact HI'| |].
          - intros [[[i' j'] k'] l']. unfold bef4. lia.
          - unfold off4. rewrite (cum_succ kk), !cum_0 by lia. fold T. ring. }
      clear s HI. intros l s Hl HI.
      rewrite !Hfs by lia. cbn [bind].
      assert (Eq : i * LMAX1 * LMAX1 * LMAX1 + j * LMAX1 * LMAX1 + kk * LMAX1 + l = qpos k (i, j, kk, l)).
      { unfold qpos. rewrite Ho. reflexivity. }
      assert (Enf : knf k (i, j, kk, l) = len i * len j * len kk * len l) by (unfold knf, kind_nf; rewrite Ho; reflexivity).
      rewrite Eq. change (kind_init k om ng i j kk l) with (kenv k om ng (i, j, kk, l)).
      eapply wp_mono; [apply gen_step_ok; [exact Hng|exact HI|unfold qok; lia| | | |]|].
      + intros [[[i' j'] k'] l']. unfold bef4, qpos. rewrite Ho. cbn [Z.eqb Pos.eqb]. lia.
      + rewrite Hll. unfold qpos. rewrite Ho. cbn [Z.eqb Pos.eqb]. lia.
      + unfold qpos. rewrite Ho. cbn [Z.eqb Pos.eqb]. intros. assert (i = 0) by lia. assert (j = 0) by lia.
        assert (kk = 0) by lia. assert (l = 0) by lia. subst. unfold off4. rewrite !cum_0. ring.
      + rewrite Hcc, Enf. unfold off4. pose proof (T4 i j kk l ltac:(lia) ltac:(lia) ltac:(lia) ltac:(lia)). nia.
      + intros s' HI'. eapply gen_inv_iff; [exact HI'| |].
        * intros [[[i' j'] k'] l']. unfold bef4. split.
          -- intros H. destruct (Z.eq_dec i' i) as [->|]; [|left; lia]. destruct (Z.eq_dec j' j) as [->|]; [|left; lia].
             destruct (Z.eq_dec k' kk) as [->|]; [|left; lia]. destruct (Z.eq_dec l' l) as [->|]; [right; reflexivity|left; lia].
          -- intros [H|H]; [lia|]. injection H as -> -> -> ->. lia.
        * rewrite Enf. unfold off4. rewrite (cum_succ l) by lia. ring.
    - intros s' HI'. eapply gen_inv_iff; [exact HI'| |].
      + intros [[[i j] kk] l]. unfold all_quads, bef4. rewrite Ho. cbn [Z.eqb Pos.eqb]. lia.
      + rewrite Hcc. unfold off4. rewrite !cum_0. fold T. ring.
  Qed.

  Definition bef3 (i j kk : Z) (q : quad) : Prop :=
    let '(i', j', k', l') := q in 0 <= i' <= L /\ 0 <= j' <= L /\ 0 <= k' <= L /\ l' = 0 /\
      (i' < i \/ i' = i /\ (j' < j \/ j' = j /\ k' < kk)).
  Definition off3 (i j kk : Z) : Z := 3 * (cum i * (T * T) + len i * (cum j * T + len j * cum kk)).

  Lemma loop3 s : kind_order k = 3 -> gen_inv k om ng ll cc (fun _ => False) 0 s ->
    wp (for_ 0 (L + 1) (fun i s => for_ 0 (L + 1) (fun j s => for_ 0 (L + 1) (fun kk s =>
          li <- fs i ;; lj <- fs j ;; lk <- fs kk ;;
          gen_step k (kind_init k om ng li lj lk 0) (i * LMAX1 * LMAX1 + j * LMAX1 + kk) s) s) s) s)
       (gen_inv k om ng ll cc all_quads cc).
  Proof.
    intros Ho HI. pose proof L_range as HL. assert (Tpos : 0 <= T) by apply cum_nonneg.
    assert (Hcc : cc = 3 * (T * (T * T))) by (unfold cc; rewrite Ho; ring).
    assert (Hll : ll = (max_l + 1) * 256) by (unfold ll; rewrite Ho; reflexivity).
    apply (wp_for (fun i s => gen_inv k om ng ll cc (bef3 i 0 0) (off3 i 0 0) s)); [lia| | |].
    - eapply gen_inv_iff; [exact HI| |unfold off3; rewrite !cum_0; ring].
      intros [[[i j] kk] l]. unfold bef3. lia.
    - clear s HI. intros i s Hi HI.
      apply (wp_for (fun j s => gen_inv k om ng ll cc (bef3 i j 0) (off3 i j 0) s)); [lia|exact HI| |].
      2:{ intros s' HI'. eapply gen_inv_iff; [exact HI'| |].
          - intros [[[i' j'] k'] l']. unfold bef3. lia.
          - unfold off3. rewrite cum_succ, !cum_0 by lia. fold T. ring. }
      clear s HI. intros j s Hj HI.
      apply (wp_for (fun kk s => gen_inv k om ng ll cc (bef3 i j kk) (off3 i j kk) s)); [lia|exact HI| |].
      2:{ intros s' HI'. eapply gen_inv_iff; [exact HI'| |].
          - intros [[[i' j'] k'] l']. unfold bef3. lia.
          - unfold off3. rewrite (cum_succ j), !cum_0 by lia. fold T. ring. }
      clear s HI. intros kk s Hk HI.
      rewrite !Hfs by lia. cbn [bind].
      assert (Eq : i * LMAX1 * LMAX1 + j * LMAX1 + kk = qpos k (i, j, kk, 0)).
      { unfold qpos. rewrite Ho. reflexivity. }
      assert (Enf : knf k (i, j, kk, 0) = len i * len j * len kk) by (unfold knf, kind_nf; rewrite Ho; reflexivity).
      rewrite Eq. change (kind_init k om ng i j kk 0) with (kenv k om ng (i, j, kk, 0)).
      eapply wp_mono; [apply gen_step_ok; [exact Hng|exact HI|unfold qok; lia| | | |]|].
      + intros [[[i' j'] k'] l']. unfold bef3, qpos. rewrite Ho. cbn [Z.eqb Pos.eqb]. lia.
      + rewrite Hll. unfold qpos. rewrite Ho. cbn [Z.eqb Pos.eqb]. lia.
      + unfold qpos. rewrite Ho. cbn [Z.eqb Pos.eqb]. intros. assert (i = 0) by lia. assert (j = 0) by lia.
        assert (kk = 0) by lia. subst. unfold off3. rewrite !cum_0. ring.
      + rewrite Hcc, Enf. unfold off3.
        pose proof (cum_nonneg i). pose proof (cum_nonneg j). pose proof (cum_nonneg kk).
        pose proof (len_pos i ltac:(lia)). pose proof (len_pos j ltac:(lia)). pose proof (len_pos kk ltac:(lia)).
        pose proof (cum_T i ltac:(lia)). pose proof (cum_T j ltac:(lia)).
        pose proof (cum_T kk ltac:(lia)).
        assert (A : 0 <= cum j * T + len j * (cum kk + len kk) <= T * T) by (split; [nia|apply room_step; lia]).
        assert (B : cum i * (T * T) + len i * (cum j * T + len j * (cum kk + len kk)) <= T * (T * T)) by (apply room_step; lia).
        nia.
      + intros s' HI'. eapply gen_inv_iff; [exact HI'| |].
        * intros [[[i' j'] k'] l']. unfold bef3. split.
          -- intros H. destruct (Z.eq_dec i' i) as [->|]; [|left; lia]. destruct (Z.eq_dec j' j) as [->|]; [|left; lia].
             destruct (Z.eq_dec k' kk) as [->|]; [right; f_equal; lia|left; lia].
          -- intros [H|H]; [lia|]. injection H as -> -> -> ->. lia.
        * rewrite Enf. unfold off3. rewrite (cum_succ kk) by lia. ring.
    - intros s' HI'. eapply gen_inv_iff; [exact HI'| |].
      + intros [[[i j] kk] l]. unfold all_quads, bef3. rewrite Ho. cbn [Z.eqb Pos.eqb]. lia.
      + rewrite Hcc. unfold off3. rewrite !cum_0. fold T. ring.
  Qed.

  Definition bef2 (i j : Z) (q : quad) : Prop :=
    let '(i', j', k', l') := q in 0 <= i' <= L /\ 0 <= j' <= L /\ k' = 0 /\ l' = 0 /\ (i' < i \/ i' = i /\ j' < j).
  Definition off2 (i j : Z) : Z := 3 * (cum i * T + len i * cum j).

  Lemma loop2 s : kind_order k = 2 -> gen_inv k om ng ll cc (fun _ => False) 0 s ->
    wp (for_ 0 (L + 1) (fun i s => for_ 0 (L + 1) (fun j s =>
          li <- fs i ;; lj <- fs j ;;
          gen_step k (kind_init k om ng li lj 0 0) (i * LMAX1 + j) s) s) s)
       (gen_inv k om ng ll cc all_quads cc).
  Proof.
    intros Ho HI. pose proof L_range as HL. assert (Tpos : 0 <= T) by apply cum_nonneg.
    assert (Hcc : cc = 3 * (T * T)) by (unfold cc; rewrite Ho; ring).
    assert (Hll : ll = (max_l + 1) * 16) by (unfold ll; rewrite Ho; reflexivity).
    apply (wp_for (fun i s => gen_inv k om ng ll cc (bef2 i 0) (off2 i 0) s)); [lia| | |].
    - eapply gen_inv_iff; [exact HI| |unfold off2; rewrite !cum_0; ring].
      intros [[[i j] kk] l]. unfold bef2. lia.
    - clear s HI. intros i s Hi HI.
      apply (wp_for (fun j s => gen_inv k om ng ll cc (bef2 i j) (off2 i j) s)); [lia|exact HI| |].
      2:{ intros s' HI'. eapply gen_inv_iff; [exact HI'| |].
          - intros [[[i' j'] k'] l']. unfold bef2. lia.
          - unfold off2. rewrite cum_succ, !cum_0 by lia. fold T. ring. }
      clear s HI. intros j s Hj HI.
      rewrite !Hfs by lia. cbn [bind].
      assert (Eq : i * LMAX1 + j = qpos k (i, j, 0, 0)).
      { unfold qpos. rewrite Ho. reflexivity. }
      assert (Enf : knf k (i, j, 0, 0) = len i * len j) by (unfold knf, kind_nf; rewrite Ho; reflexivity).
      rewrite Eq. change (kind_init k om ng i j 0 0) with (kenv k om ng (i, j, 0, 0)).
      eapply wp_mono; [apply gen_step_ok; [exact Hng|exact HI|unfold qok; lia| | | |]|].
      + intros [[[i' j'] k'] l']. unfold bef2, qpos. rewrite Ho. cbn [Z.eqb Pos.eqb]. lia.
      + rewrite Hll. unfold qpos. rewrite Ho. cbn [Z.eqb Pos.eqb]. lia.
      + unfold qpos. rewrite Ho. cbn [Z.eqb Pos.eqb]. intros. assert (i = 0) by lia. assert (j = 0) by lia.
        subst. unfold off2. rewrite !cum_0. ring.
      + rewrite Hcc, Enf. unfold off2.
        pose proof (cum_nonneg i). pose proof (cum_nonneg j).
        pose proof (len_pos i ltac:(lia)). pose proof (len_pos j ltac:(lia)).
        pose proof (cum_T i ltac:(lia)). pose proof (cum_T j ltac:(lia)).
        assert (A : cum i * T + len i * (cum j + len j) <= T * T) by (apply room_step; lia). nia.
      + intros s' HI'. eapply gen_inv_iff; [exact HI'| |].
        * intros [[[i' j'] k'] l']. unfold bef2. split.
          -- intros H. destruct (Z.eq_dec i' i) as [->|]; [|left; lia]. destruct (Z.eq_dec j' j) as [->|]; [right; f_equal; [f_equal|]; lia|left; lia].
          -- intros [H|H]; [lia|]. injection H as -> -> -> ->. lia.
        * rewrite Enf. unfold off2. rewrite (cum_succ j) by lia. ring.
    - intros s' HI'. eapply gen_inv_iff; [exact HI'| |].
      + intros [[[i j] kk] l]. unfold all_quads, bef2. rewrite Ho. cbn [Z.eqb Pos.eqb]. lia.
      + rewrite Hcc. unfold off2. rewrite !cum_0. fold T. ring.
  Qed.
End GenLoops.

Section Final.
  Context {F : Type} (O : fops F).
  Variables (atm bas : arr Z) (nbas : Z) (env : arr F) (V : view) (ev : Z -> F).
  Hypothesis Hn : 0 <= nbas.
  Hypothesis HV : has_shells atm bas nbas V.
  Hypothesis HS : shells_ok nbas V (asize env).
  Hypothesis HE : env_is env ev.
  Hypothesis Hat : exists c, rd atm 1 = Some c.

  Definition max_l_is (m : Z) : Prop :=
    0 <= m <= 15 /\ (forall i, 0 <= i < nbas -> v_l V i <= m) /\
    (m = 0 \/ exists i, 0 <= i < nbas /\ v_l V i = m).

  Lemma fakebas_ok : wp (make_fakebas bas nbas) (fun '(fb, m) =>
    max_l_is m /\ forall i, 0 <= i <= m -> fake_shell atm fb i = Some i).
  Proof.
    unfold make_fakebas. apply wp_bind.
    apply (wp_for (fun n m => 0 <= m <= 15 /\ (forall i, 0 <= i < n -> v_l V i <= m) /\
       (m = 0 \/ exists i, 0 <= i < n /\ v_l V i = m))); [exact Hn|split; [lia|split; [intros; lia|left; reflexivity]]| |].
    - intros i m Hi (H1 & H2 & H3). rewrite (rd_l atm bas nbas V HV) by lia. cbn [bind wp].
      destruct (HS i ltac:(lia)) as (Hl & _). split; [lia|]. split.
      + intros j Hj. destruct (Z.eq_dec j i) as [->|]; [lia|]. specialize (H2 j ltac:(lia)). lia.
      + destruct (Z.max_spec m (v_l V i)) as [[L E]|[L E]]; rewrite E.
        * right. exists i. split; [lia|reflexivity].
        * destruct H3 as [->|(j & Hj & Ej)]; [left; reflexivity|right; exists j; split; [lia|exact Ej]].
    - intros m Hm. assert (Hm' := Hm). destruct Hm as (H1 & H2 & H3). unfold BAS_SLOTS, LMAX1.
      apply wp_bind. apply (wp_for (fun i fb => asize fb = 8 * 16 /\ forall x, 0 <= x < i -> rd fb x = Some 0));
        [lia|split; [reflexivity|intros; lia]| |].
      + intros i fb Hi [S1 D]. apply wp_wr'; [lia|]. intros fb' E Fr. split; [destruct Fr; congruence|].
        intros x Hx. destruct (Z.eq_dec x i) as [->|]; [exact E|]. eapply rd_frame; [exact Fr|cbv beta; lia|apply D; lia].
      + intros fb [S1 D]. apply wp_bind. unfold ANG_OF.
        apply (wp_for (fun i fb => asize fb = 8 * 16 /\
           (forall x, 0 <= x < i -> rd fb (8 * x + 1) = Some x) /\
           (forall x s, 0 <= x <= m -> 0 <= s < 8 -> s <> 1 -> rd fb (8 * x + s) = Some 0))); [lia| | |].
        * split; [exact S1|]. split; [intros; lia|]. intros x s Hx Hs _. apply D. lia.
        * intros i fb1 Hi (S2 & D1 & D2). apply wp_wr'; [lia|]. intros fb2 E Fr. split; [destruct Fr; congruence|]. split.
          -- intros x Hx. destruct (Z.eq_dec x i) as [->|]; [exact E|]. eapply rd_frame; [exact Fr|cbv beta; lia|apply D1; lia].
          -- intros x s Hx Hs N. eapply rd_frame; [exact Fr|cbv beta; lia|apply D2; assumption].
        * intros fb1 (S2 & D1 & D2). cbn [wp]. split; [exact Hm'|]. intros i Hi.
          unfold fake_shell, bas_at, BAS_SLOTS, ATOM_OF, ANG_OF, NPRIM_OF, NCTR_OF, ATM_SLOTS, PTR_COORD.
          rewrite (D2 i 0), (D2 i 2), (D2 i 3) by lia. rewrite D1 by lia. cbn [bind]. destruct Hat as [c Ec].
          change (6 * 0 + 1) with 1. rewrite Ec. reflexivity.
  Qed.

  Definition idx_table (k : kind) (ng : ngT) (m : Z) (t : arr ptr) (b : arr Z) : Prop :=
    asize t = (m + 1) * 16 ^ (kind_order k - 1) /\
    (forall q, all_quads k m q -> cached k (flt O (ev 8) (f0 O)) ng t b (asize b) q) /\
    (forall p, 0 < p < asize t -> (forall q, all_quads k m q -> qpos k q <> p) -> rd t p = Some Null).

  Lemma gen_idx_ok k ng : ng_ok ng -> wp (gen_idx O k ng atm bas nbas env) (fun '(t, b) =>
    rd t 0 = Some (Off 0) /\ exists m, max_l_is m /\ idx_table k ng m t b).
  Proof.
    intros Hng. unfold gen_idx. apply wp_bind. eapply wp_mono; [exact fakebas_ok|].
    intros [fb m] [Hm Hfs]. cbv beta iota. assert (Hm15 : 0 <= m <= 15) by (destruct Hm; assumption).
    assert (HL := L_range k m Hm15). set (L := Z.min m (kind_lallow k)) in *.
    unfold allocate_index_xyz. rewrite index_sizes by lia.
    apply wp_bind. set (ll := (m + 1) * 16 ^ (kind_order k - 1)).
    assert (Hll : 0 < ll) by (unfold ll; destruct k; cbn; lia).
    apply wp_bind. apply wp_wr'; [cbn [asize uninit]; lia|]. intros t0 E0 Fr0.
    apply wp_bind. apply (wp_for (fun i t => asize t = ll /\ rd t 0 = Some (Off 0) /\ forall p, 0 < p < i -> rd t p = Some Null)); [lia| | |].
    { split; [destruct Fr0 as [-> _]; reflexivity|]. split; [exact E0|intros; lia]. }
    { intros i t Hi (S1 & D0 & D). apply wp_wr'; [lia|]. intros t' E Fr. split; [destruct Fr; congruence|]. split.
      - eapply rd_frame; [exact Fr|cbv beta; lia|exact D0].
      - intros p Hp. destruct (Z.eq_dec p i) as [->|]; [exact E|]. eapply rd_frame; [exact Fr|cbv beta; lia|apply D; lia]. }
    intros t (S1 & D0 & D). cbn [wp]. apply wp_bind. unfold PTR_RANGE_OMEGA.
    rewrite (rd_env env ev HE) by (destruct HE; lia). cbn [wp]. cbv zeta.
    set (om := flt O (ev 8) (f0 O)).
    assert (HI : gen_inv k om ng ll (3 * cum (L + 1) ^ kind_order k) (fun _ => False) 0 (t, uninit (3 * cum (L + 1) ^ kind_order k), 0)).
    { split; [reflexivity|]. split; [lia|]. split; [exact S1|]. split; [reflexivity|]. split; [exact D0|]. split; [tauto|].
      intros p Hp _. apply D. lia. }
    apply wp_bind.
    assert (Hend : forall s, gen_inv k om ng ll (3 * cum (L + 1) ^ kind_order k) (all_quads k m) (3 * cum (L + 1) ^ kind_order k) s ->
       wp (let '(t, b, _) := s in Some (t, b)) (fun '(t, b) => rd t 0 = Some (Off 0) /\ exists m, max_l_is m /\ idx_table k ng m t b)).
    { intros [[t' b'] o'] (_ & _ & G1 & G2 & G3 & G4 & G5). cbn [wp]. split; [exact G3|]. exists m. split; [exact Hm|].
      split; [exact G1|]. rewrite G2. split; [exact G4|]. rewrite G1. exact G5. }
    destruct (kind_order k =? 2) eqn:O2; [|destruct (kind_order k =? 3) eqn:O3].
    - eapply wp_mono; [apply (loop2 k om ng m); [exact Hng|exact Hm15|exact Hfs|lia|exact HI]|exact Hend].
    - eapply wp_mono; [apply (loop3 k om ng m); [exact Hng|exact Hm15|exact Hfs|lia|exact HI]|exact Hend].
    - eapply wp_mono; [apply (loop4 k om ng m); [exact Hng|exact Hm15|exact Hfs|destruct k; cbn in *; lia|exact HI]|exact Hend].
  Qed.

  (** ** sparse lists *)
  Definition offc (i : Z) : Z := Zsum i (fun n => v_np V n * v_nc V n).
  Definition cfv (i c p : Z) : F := ev (v_coef V i + (v_np V i * c + p)).
  Definition isz (c : F) : bool := feq O c (f0 O).
  Let tot := Zsum nbas (v_np V).

  (** the lists of shell [i] lie at its two pointers, and are the ones
      CINTOpt_non0coeff_byshell computes for it *)
  Definition lists_at (tn ts : arr ptr) (pn ps : arr Z) (i : Z) : Prop :=
    rd tn i = Some (Off (off V i)) /\ rd ts i = Some (Off (offc i)) /\
    forall p, 0 <= p < v_np V i ->
      rd pn (off V i + p) = Some (Z.of_nat (length (filter (fun j => negb (isz (cfv i j p))) (zseq (v_nc V i))))) /\
      forall c, 0 <= c < v_nc V i ->
        rd ps (offc i + (p * v_nc V i + c)) = nth_error (sorted_row isz (cfv i) (v_nc V i) p) (Z.to_nat c).

  Lemma pc_nonneg i : 0 <= i < nbas -> 0 <= v_np V i * v_nc V i.
  Proof. intros H. destruct (HS i H) as (_ & A & B & _). nia. Qed.

  Lemma set_non0coeff_ok : wp (set_non0coeff O bas nbas env) (fun r =>
    match r with
    | None => tot = 0
    | Some ((tn, pn), (ts, ps)) => tot <> 0 /\ rd tn 0 = Some (Off 0) /\ rd ts 0 = Some (Off 0) /\
        asize pn = tot /\ asize ps = Zsum nbas (fun n => v_np V n * v_nc V n) /\
        forall i, 0 <= i < nbas -> lists_at tn ts pn ps i
    end).
  Proof.
    unfold set_non0coeff. apply wp_bind.
    apply (wp_for (fun i '(a, b) => a = Zsum i (v_np V) /\ b = offc i)); [exact Hn| | |].
    - split; [rewrite Zsum_0 by lia|unfold offc; rewrite Zsum_0 by lia]; reflexivity.
    - intros i [a b] Hi [-> ->]. rewrite (rd_np atm bas nbas V HV), (rd_nc atm bas nbas V HV) by lia. cbn [bind wp].
      rewrite Zsum_succ by lia. split; [reflexivity|]. unfold offc. rewrite Zsum_succ by lia. reflexivity.
    - intros [a b] [-> ->]. fold tot. destruct (tot =? 0) eqn:E0; [cbn [wp]; lia|].
      apply wp_bind. apply wp_wr'; [cbn [asize uninit]; lia|]. intros tn0 En0 Frn0.
      apply wp_bind. apply wp_wr'; [cbn [asize uninit]; lia|]. intros ts0 Es0 Frs0.
      apply wp_bind.
      apply (wp_for (fun i '(tn, ts, pn, ps, o, os) => o = off V i /\ os = offc i /\
         asize tn = Z.max nbas 1 /\ asize ts = Z.max nbas 1 /\ asize pn = tot /\ asize ps = offc nbas /\
         rd tn 0 = Some (Off 0) /\ rd ts 0 = Some (Off 0) /\
         forall k, 0 <= k < i -> lists_at tn ts pn ps k)); [exact Hn| | |].
      + split; [unfold off; rewrite Zsum_0 by lia; reflexivity|]. split; [unfold offc; rewrite Zsum_0 by lia; reflexivity|].
        split; [destruct Frn0 as [-> _]; reflexivity|]. split; [destruct Frs0 as [-> _]; reflexivity|].
        split; [reflexivity|]. split; [reflexivity|]. split; [exact En0|]. split; [exact Es0|intros; lia].
      + intros i [[[[[tn ts] pn] ps] o] os] Hi (-> & -> & Sn & Ss & Spn & Sps & N0 & S0 & Dn).
        rewrite (rd_np atm bas nbas V HV), (rd_nc atm bas nbas V HV), (rd_coef atm bas nbas V HV) by lia. cbn [bind].
        apply wp_bind. apply wp_wr'; [lia|]. intros tn' En Frn.
        apply wp_bind. apply wp_wr'; [lia|]. intros ts' Es Frs.
        pose proof (off_bound nbas env V HS i ltac:(lia)) as [Ob1 Ob2]. fold tot in Ob2.
        assert (Oc1 : 0 <= offc i) by (apply Zsum_nonneg; intros; apply pc_nonneg; lia).
        assert (Oc2 : offc i + v_np V i * v_nc V i <= offc nbas) by (apply (Zsum_next i nbas); [lia|exact pc_nonneg]).
        destruct (HS i ltac:(lia)) as (_ & P1 & P2 & _ & _ & P3 & P4 & _).
        apply wp_bind. eapply wp_mono; [apply (non0coeff_ok _ _ _ _ (cfv i)); [exact P1|exact P2| | |]|].
        * cbn [asize sub]. lia.
        * cbn [asize sub]. lia.
        * intros c p Hc Hp. rewrite rd_sub' by nia. unfold cfv. apply (rd_env env ev HE). nia.
        * intros [s1 n1] (Z1 & Z2 & R & Fs & Fn). cbn [fst snd asize sub] in *. cbv beta iota. cbn [wp].
          change (fun c : F => feq O c (f0 O)) with isz in R.
          assert (HBn : forall x, 0 <= x -> rd (splice pn (off V i) n1) (off V i + x) = rd n1 x).
          { intros x Hx. unfold rd, inb, splice. cbn [asize acell]. replace (off V i <=? off V i + x) with true by lia.
            replace (off V i + x - off V i) with x by lia. rewrite Z2.
            replace (x <? asize pn - off V i) with (off V i + x <? asize pn) by lia.
            replace (0 <=? off V i + x) with true by lia. replace (0 <=? x) with true by lia. reflexivity. }
          assert (HBs : forall x, 0 <= x -> rd (splice ps (offc i) s1) (offc i + x) = rd s1 x).
          { intros x Hx. unfold rd, inb, splice. cbn [asize acell]. replace (offc i <=? offc i + x) with true by lia.
            replace (offc i + x - offc i) with x by lia. rewrite Z1.
            replace (x <? asize ps - offc i) with (offc i + x <? asize ps) by lia.
            replace (0 <=? offc i + x) with true by lia. replace (0 <=? x) with true by lia. reflexivity. }
          assert (HOn : forall x, x < off V i -> rd (splice pn (off V i) n1) x = rd pn x).
          { intros x Hx. unfold rd, inb, splice. cbn [asize acell]. replace (off V i <=? x) with false by lia. reflexivity. }
          assert (HOs : forall x, x < offc i -> rd (splice ps (offc i) s1) x = rd ps x).
          { intros x Hx. unfold rd, inb, splice. cbn [asize acell]. replace (offc i <=? x) with false by lia. reflexivity. }
          split; [unfold off; rewrite Zsum_succ by lia; reflexivity|].
          split; [unfold offc; rewrite Zsum_succ by lia; reflexivity|].
          split; [destruct Frn; congruence|]. split; [destruct Frs; congruence|]. split; [exact Spn|]. split; [exact Sps|].
          split. { destruct (Z.eq_dec i 0) as [->|N]; [rewrite En; unfold off; rewrite Zsum_0 by lia; reflexivity|].
                   eapply rd_frame; [exact Frn|cbv beta; lia|exact N0]. }
          split. { destruct (Z.eq_dec i 0) as [->|N]; [rewrite Es; unfold offc; rewrite Zsum_0 by lia; reflexivity|].
                   eapply rd_frame; [exact Frs|cbv beta; lia|exact S0]. }
          intros k Hk. destruct (Z.eq_dec k i) as [->|N].
          -- split; [exact En|]. split; [exact Es|]. intros p Hp. destruct (R p Hp) as [R1 R2].
             split; [rewrite HBn by lia; exact R1|]. intros c Hc. rewrite HBs by nia.
             specialize (R2 (Z.to_nat c)). rewrite Z2Nat.id in R2 by lia. apply R2. rewrite zseq_length. lia.
          -- destruct (Dn k ltac:(lia)) as (D1 & D2 & D3).
             split; [eapply rd_frame; [exact Frn|cbv beta; lia|exact D1]|].
             split; [eapply rd_frame; [exact Frs|cbv beta; lia|exact D2]|].
             assert (U1 : off V k + v_np V k <= off V i).
             { unfold off. apply Zsum_next; [lia|]. intros x Hx. apply (np_nonneg nbas env V HS). lia. }
             assert (U2 : offc k + v_np V k * v_nc V k <= offc i).
             { unfold offc. apply (Zsum_next k i (fun n => v_np V n * v_nc V n)); [lia|]. intros x Hx. apply pc_nonneg. lia. }
             intros p Hp. destruct (D3 p Hp) as [D4 D5]. split; [rewrite HOn by lia; exact D4|].
             intros c Hc. rewrite HOs by nia. apply D5, Hc.
      + intros [[[[[tn ts] pn] ps] o] os] (_ & _ & Sn & Ss & Spn & Sps & N0 & S0 & Dn). cbn [wp].
        split; [lia|]. split; [exact N0|]. split; [exact S0|]. split; [exact Spn|]. split; [exact Sps|exact Dn].
  Qed.
End Final.

