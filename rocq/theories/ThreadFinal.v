(** ThreadFinal.v — every interleaving ends with the same array. *)
From Verif Require Import Base BasModel EnvModel OutModel OutSpec ThreadModel ThreadProof.

Section Mach.
  Context {F : Type}.
  Notation store := (store (F := F)).

  (** contents of cell [j] after the stores, [old] before them *)
  Definition final (tr : list store) (j : Z) (old : option F) : option F :=
    fold_left (fun o s => if j =? fst s then Some (snd s) else o) tr old.
  Lemma final_app t u j o : final (t ++ u) j o = final u j (final t j o).
  Proof. unfold final. apply fold_left_app. Qed.
  Lemma final_cons s t j o : final (s :: t) j o = final t j (if j =? fst s then Some (snd s) else o).
  Proof. reflexivity. Qed.
  Lemma final_none t j o : (forall s, In s t -> j <> fst s) -> final t j o = o.
  Proof.
    revert o. induction t as [|s t IH]; intros o H; [reflexivity|].
    rewrite final_cons. replace (j =? fst s) with false by (specialize (H s (or_introl eq_refl)); lia).
    apply IH. intros s' Hs'. apply H. right. exact Hs'.
  Qed.
  Lemma final_some t j o : (exists s, In s t /\ j = fst s) -> exists v, final t j o = Some v.
  Proof.
    revert o. induction t as [|s t IH]; intros o (s' & Hs & E); [destruct Hs|destruct Hs as [Hs|Hs]].
    - subst s'. rewrite final_cons. replace (j =? fst s) with true by lia.
      destruct (in_dec Z.eq_dec j (map fst t)) as [Hi|Hi].
      + apply IH. apply in_map_iff in Hi as (s2 & E2 & Hi). exists s2. split; congruence.
      + rewrite final_none; [eauto|]. intros s2 H2 E2. apply Hi. apply in_map_iff. exists s2. split; congruence.
    - rewrite final_cons. apply IH. eauto.
  Qed.
  (** a cell that is stored to does not depend on what was there *)
  Lemma final_indep t j o o' : (exists s, In s t /\ j = fst s) -> final t j o = final t j o'.
  Proof.
    revert o o'. induction t as [|s t IH]; intros o o' (s' & Hs & E); [destruct Hs|destruct Hs as [Hs|Hs]].
    - subst s'. rewrite !final_cons. replace (j =? fst s) with true by lia. reflexivity.
    - rewrite !final_cons. apply IH. eauto.
  Qed.
  Lemma cell_stores t : forall (a : arr F) j, acell (stores t a) j = final t j (acell a j).
  Proof.
    induction t as [|s t IH]; intros a j; [reflexivity|].
    rewrite final_cons. change (stores (s :: t) a) with (stores t (store1 a s)). rewrite IH. reflexivity.
  Qed.

  (** no cell in common *)
  Definition disj (t u : list store) : Prop := forall s s', In s t -> In s' u -> fst s <> fst s'.

  Lemma disj_sub t t' u : incl t' t -> disj t u -> disj t' u.
  Proof. intros H D s s' Hs. apply D. auto. Qed.

  Lemma ord_shrink s t post pre : ForallOrdPairs disj (pre ++ (s :: t) :: post) ->
    ForallOrdPairs disj (pre ++ t :: post) /\ (forall u, In u pre -> disj u (s :: t)).
  Proof.
    induction pre as [|p pre IH]; cbn [app]; intros H; inversion H as [|? ? Hh Ht]; subst.
    - split; [|intros ? []]. constructor; [|exact Ht].
      eapply Forall_impl; [|exact Hh]. intros u D. eapply disj_sub; [|exact D]. apply incl_tl, incl_refl.
    - destruct (IH Ht) as [H1 H2]. split.
      + constructor; [|exact H1]. apply Forall_app in Hh as [Ha Hb]. inversion Hb as [|? ? Hx Hy]; subst.
        apply Forall_app. split; [exact Ha|]. constructor; [|exact Hy].
        intros x y Hxx Hyy. apply Hx; [exact Hxx|right; exact Hyy].
      + intros u [->|Hu]; [|exact (H2 u Hu)].
        apply Forall_app in Hh as [_ Hb]. inversion Hb; subst. assumption.
  Qed.

  Lemma concat_in {A} (x : A) ls : In x (concat ls) <-> exists l, In l ls /\ In x l.
  Proof. apply in_concat. Qed.

  Lemma step_keeps a trs a' trs' : step (a, trs) (a', trs') -> ForallOrdPairs disj trs ->
    ForallOrdPairs disj trs' /\ asize a' = asize a /\
    (forall j, final (concat trs') j (acell a' j) = final (concat trs) j (acell a j)).
  Proof.
    intros H D. inversion H as [? ? pre s t post W]; subst.
    destruct (ord_shrink _ _ _ _ D) as [D' Dp].
    unfold wr in W. destruct (inb a (fst s)); [|discriminate]. injection W as <-.
    split; [exact D'|]. split; [reflexivity|]. intros j. cbn [acell].
    rewrite !concat_app. cbn [concat app]. rewrite !final_app, final_cons, ?final_app.
    destruct (Z.eqb_spec j (fst s)) as [E|E]; [|reflexivity].
    rewrite (final_none (concat pre)); [reflexivity|].
    intros s' Hs'. apply in_concat in Hs' as (u & Hu & Hs'). subst j.
    intros E'. apply (Dp u Hu s' s Hs' (or_introl eq_refl)). congruence.
  Qed.

  Lemma steps_keep x y : steps x y -> ForallOrdPairs disj (snd x) ->
    ForallOrdPairs disj (snd y) /\ asize (fst y) = asize (fst x) /\
    (forall j, final (concat (snd y)) j (acell (fst y) j) = final (concat (snd x)) j (acell (fst x) j)).
  Proof.
    induction 1 as [|x y z Hs _ IH]; intros D; [auto|].
    destruct x as [a t], y as [a' t']. destruct (step_keeps _ _ _ _ Hs D) as (D' & S & E).
    destruct (IH D') as (D2 & S2 & E2). cbn [fst snd] in *. split; [exact D2|]. split; [congruence|].
    intros j. rewrite E2. apply E.
  Qed.

  Lemma finished_concat (ts : list (list store)) : finished ts -> concat ts = [].
  Proof. induction 1 as [|t ts Ht _ IH]; [reflexivity|]. subst t. exact IH. Qed.

  Theorem interleavings_agree (a a' : arr F) trs rest :
    ForallOrdPairs disj trs -> steps (a, trs) (a', rest) -> finished rest ->
    asize a' = asize a /\ forall j, acell a' j = acell (stores (concat trs) a) j.
  Proof.
    intros D H Hf. destruct (steps_keep _ _ H D) as (_ & S & E). cbn [fst snd] in *.
    split; [exact S|]. intros j. rewrite cell_stores, <- E, (finished_concat _ Hf). reflexivity.
  Qed.

  (** a thread with a store left can perform it *)
  Lemma steps_inside x y : steps (F := F) x y -> Forall (inside (asize (fst x))) (snd x) ->
    asize (fst y) = asize (fst x) /\ Forall (inside (asize (fst x))) (snd y).
  Proof.
    induction 1 as [|x y z Hs _ IH]; intros D; [auto|].
    inversion Hs as [a a' pre s t post W]; subst. cbn [fst snd] in *.
    assert (Sz : asize a' = asize a).
    { unfold wr in W. destruct (inb a (fst s)); [|discriminate]. injection W as <-. reflexivity. }
    rewrite Sz in IH. apply IH. apply Forall_app in D as [Da Db]. inversion Db as [|? ? Dx Dy]; subst.
    apply Forall_app. split; [exact Da|]. constructor; [|exact Dy]. inversion Dx; assumption.
  Qed.
  Lemma can_go_on (a : arr F) ts : Forall (inside (asize a)) ts ->
    finished ts \/ exists next, step (a, ts) next.
  Proof.
    intros H. induction H as [|t ts Ht Hts IH]; [left; constructor|].
    destruct t as [|s t].
    - destruct IH as [IH|((a', ts') & IH)]; [left; constructor; auto|right].
      inversion IH as [? ? pre s t post W]; subst.
      exists (a', ([] :: pre) ++ t :: post). apply (step_store a a' ([] :: pre) s t post W).
    - right. inversion Ht as [|? ? Hs _]; subst.
      assert (W : exists a', wr a (fst s) (snd s) = Some a').
      { unfold wr, inb. replace ((0 <=? fst s) && (fst s <? asize a)) with true by lia. eauto. }
      destruct W as (a' & W). exists (a', [] ++ t :: ts). apply (step_store a a' [] s t ts W).
  Qed.

  (** ** Calls *)
  Lemma final_shift o t j old : final (shift o t) j old = final t (j - o) old.
  Proof.
    revert old. induction t as [|s t IH]; intros old; [reflexivity|].
    cbn [shift map]. rewrite !final_cons. cbn [fst snd].
    replace (j =? o + fst s) with (j - o =? fst s) by lia. apply IH.
  Qed.

  Lemma call_ok sz c t (a : arr F) : call_stores sz c t -> asize a = sz ->
    inside sz t /\
    exists r, onsub a (c_off c) (c_fun c) = Some r /\ asize r = sz /\ forall j, acell r j = final t j (acell a j).
  Proof.
    intros (Ho & t0 & (Hi & Hc) & ->) Ha. split.
    - apply Forall_forall. intros s Hs. apply in_map_iff in Hs as (s0 & <- & Hs0).
      pose proof (proj1 (Forall_forall _ _) Hi s0 Hs0) as H. cbn [fst] in *. cbv beta in H. lia.
    - exists (splice a (c_off c) (stores t0 (sub a (c_off c)))).
      unfold onsub. rewrite Hc by (cbn [sub asize]; lia). cbn [bind]. split; [reflexivity|].
      split; [exact Ha|]. intros j. cbn [splice acell]. rewrite cell_stores, final_shift. cbn [sub acell].
      destruct (Z.leb_spec (c_off c) j).
      + replace (c_off c + (j - c_off c)) with j by lia. reflexivity.
      + symmetry. apply final_none. intros s Hs. pose proof (proj1 (Forall_forall _ _) Hi s Hs) as H0.
        cbv beta in H0. lia.
  Qed.

  Lemma thread_ok sz cs t : thread_stores sz cs t -> forall a : arr F, asize a = sz ->
    inside sz t /\
    exists r, run_calls cs a = Some r /\ asize r = sz /\ forall j, acell r j = final t j (acell a j).
  Proof.
    induction 1 as [|c cs t ts Hc _ IH]; intros a Ha.
    - split; [constructor|]. exists a. repeat split; auto.
    - destruct (call_ok _ _ _ a Hc Ha) as (I1 & r1 & E1 & S1 & C1).
      destruct (IH r1 S1) as (I2 & r2 & E2 & S2 & C2).
      split; [apply Forall_app; split; assumption|].
      exists r2. cbn [run_calls]. rewrite E1. cbn [bind]. split; [exact E2|]. split; [exact S2|].
      intros j. rewrite C2, C1, final_app. reflexivity.
  Qed.

  Lemma run_calls_app cs ds (a : arr F) :
    run_calls (cs ++ ds) a = bind (run_calls cs a) (run_calls ds).
  Proof.
    revert a. induction cs as [|c cs IH]; intros a; [reflexivity|].
    cbn [app run_calls]. destruct (onsub a (c_off c) (c_fun c)); cbn [bind]; [apply IH|reflexivity].
  Qed.

  Lemma threads_ok sz threads trs : Forall2 (thread_stores sz) threads trs ->
    forall a : arr F, asize a = sz ->
    Forall (inside sz) trs /\
    exists r, run_calls (concat threads) a = Some r /\ asize r = sz /\
      forall j, acell r j = final (concat trs) j (acell a j).
  Proof.
    induction 1 as [|cs t cs' t' H _ IH]; intros a Ha.
    - split; [constructor|]. exists a. repeat split; auto.
    - destruct (thread_ok _ _ _ H a Ha) as (I1 & r1 & E1 & S1 & C1).
      destruct (IH r1 S1) as (I2 & r2 & E2 & S2 & C2).
      split; [constructor; assumption|].
      exists r2. cbn [concat]. rewrite run_calls_app, E1. cbn [bind]. split; [exact E2|]. split; [exact S2|].
      intros j. rewrite C2, C1, final_app. reflexivity.
  Qed.

  (** ** Blocks *)
  Lemma call_cells sz (b : bcall (F := F)) t : call_stores sz (b_call b) t -> fills sz b ->
    (forall s, In s t -> covers b (fst s)) /\
    (forall n i1 i2 i3 i4, elem b n i1 i2 i3 i4 -> forall old, final t (at_ b n i1 i2 i3 i4) old = Some (b_val b n i1 i2 i3 i4)).
  Proof.
    intros (Ho & t0 & (Hi & Hc) & ->) Hf. set (o := c_off (b_call b)) in *.
    destruct (Hf (uninit (sz - o)) eq_refl) as (out' & E & Sz & Hin & Hout).
    rewrite Hc in E by reflexivity. injection E as <-.
    split.
    - intros s Hs. apply in_map_iff in Hs as (s0 & <- & Hs0). cbn [fst].
      (* otherwise the cell would have kept its "never written" contents *)
      assert (D : covers b (o + fst s0) \/ ~ covers b (o + fst s0)).
      { assert (Hd : forall m (P : Z -> Prop), (forall x, 0 <= x < m -> P x \/ ~ P x) ->
                     (exists x, 0 <= x < m /\ P x) \/ ~ (exists x, 0 <= x < m /\ P x)).
        { intros m P HP. destruct (Z_le_dec 0 m) as [Hm|Hm]; [|right; intros (x & ? & _); lia].
          revert HP. pattern m. apply natlike_ind; [| |exact Hm].
          - intros _. right. intros (x & ? & _). lia.
          - intros x Hx IH HP. destruct IH as [(y & Hy & Py)|IH].
            + intros y Hy. apply HP. lia.
            + left. exists y. split; [lia|exact Py].
            + destruct (HP x) as [Px|Px]; [lia| |].
              * left. exists x. split; [lia|exact Px].
              * right. intros (y & Hy & Py). assert (y = x \/ y < x) as [->|Hlt] by lia; [exact (Px Py)|].
                apply IH. exists y. split; [lia|exact Py]. }
        assert (H5 : (exists n, 0 <= n < b_nc b /\ exists i1, 0 <= i1 < b_m1 b /\ exists i2, 0 <= i2 < b_m2 b /\
                   exists i3, 0 <= i3 < b_m3 b /\ exists i4, 0 <= i4 < b_m4 b /\ o + fst s0 = at_ b n i1 i2 i3 i4) \/
                 ~ (exists n, 0 <= n < b_nc b /\ exists i1, 0 <= i1 < b_m1 b /\ exists i2, 0 <= i2 < b_m2 b /\
                   exists i3, 0 <= i3 < b_m3 b /\ exists i4, 0 <= i4 < b_m4 b /\ o + fst s0 = at_ b n i1 i2 i3 i4)).
        { apply Hd. intros n _. apply Hd. intros i1 _. apply Hd. intros i2 _. apply Hd. intros i3 _.
          apply Hd. intros i4 _. destruct (Z.eq_dec (o + fst s0) (at_ b n i1 i2 i3 i4)); [left|right]; auto. }
        destruct H5 as [(n & ? & i1 & ? & i2 & ? & i3 & ? & i4 & ? & Ex)|H5]; [left|right].
        - exists n, i1, i2, i3, i4. split; [|exact Ex]. unfold elem. auto.
        - intros (n & i1 & i2 & i3 & i4 & (? & ? & ? & ? & ?) & Ex). apply H5.
          exists n. split; [auto|]. exists i1. split; [auto|]. exists i2. split; [auto|].
          exists i3. split; [auto|]. exists i4. split; auto. }
      destruct D as [D|D]; [exact D|exfalso].
      assert (Hn : acell (stores t0 (uninit (sz - o))) (fst s0) = None).
      { rewrite Hout; [reflexivity|]. intros n i1 i2 i3 i4 h0 h1 h2 h3 h4 Ex. apply D.
        exists n, i1, i2, i3, i4. split; [unfold elem; auto|]. unfold at_. fold o. lia. }
      rewrite cell_stores in Hn. destruct (final_some t0 (fst s0) (acell (uninit (sz - o)) (fst s0))) as (v & Hv); [eauto|].
      congruence.
    - intros n i1 i2 i3 i4 (h0 & h1 & h2 & h3 & h4) old. unfold at_. fold o. rewrite final_shift.
      set (p := place (b_n1 b) (b_n2 b) (b_n3 b) (b_n4 b) n i1 i2 i3 i4).
      replace (o + p - o) with p by lia.
      specialize (Hin n i1 i2 i3 i4 h0 h1 h2 h3 h4). fold p in Hin.
      apply rd_spec in Hin as [Hr Hc']. rewrite cell_stores in Hc'. cbn [uninit acell] in Hc'.
      rewrite <- Hc'. apply final_indep.
      destruct (in_dec Z.eq_dec p (map fst t0)) as [Hip|Hip].
      + apply in_map_iff in Hip as (s & Es & Hs). exists s. auto.
      + rewrite final_none in Hc'; [discriminate|]. intros s Hs Es. apply Hip. apply in_map_iff. exists s. auto.
  Qed.

  Lemma wo_call_stores sz (b : bcall (F := F)) : 0 <= c_off (b_call b) -> WO (sz - c_off (b_call b)) (c_fun (b_call b)) -> fills sz b ->
    exists t, call_stores (F := F) sz (b_call b) t.
  Proof.
    intros Ho [H|(tr & H)] Hf.
    - destruct (Hf (uninit (sz - c_off (b_call b))) eq_refl) as (out' & E & _). rewrite H in E by reflexivity. discriminate.
    - exists (shift (c_off (b_call b)) tr). split; [exact Ho|]. exists tr. auto.
  Qed.

  (** what the stores of a list of calls leave behind *)
  Lemma blocks_thread sz (bs : list (bcall (F := F))) t : thread_stores sz (map b_call bs) t -> Forall (fills sz) bs ->
    forall s, In s t -> exists b, In b bs /\ covers b (fst s).
  Proof.
    revert t. induction bs as [|b bs IH]; intros t H Hf s Hs; inversion H as [|? ? t1 t2 H1 H2]; subst; [destruct Hs|].
    inversion Hf as [|? ? Hb Hbs]; subst. apply in_app_iff in Hs as [Hs|Hs].
    - exists b. split; [left; reflexivity|]. exact (proj1 (call_cells _ _ _ H1 Hb) s Hs).
    - destruct (IH _ H2 Hbs s Hs) as (b' & Hb' & C). exists b'. split; [right; exact Hb'|exact C].
  Qed.
  Lemma blocks_final sz (bs : list (bcall (F := F))) t : thread_stores sz (map b_call bs) t -> Forall (fills sz) bs ->
    ForallOrdPairs blocks_apart bs ->
    forall b, In b bs -> forall n i1 i2 i3 i4, elem b n i1 i2 i3 i4 -> forall old,
      final t (at_ b n i1 i2 i3 i4) old = Some (b_val b n i1 i2 i3 i4).
  Proof.
    revert t. induction bs as [|c bs IH]; intros t H Hf Hp b Hb n i1 i2 i3 i4 He old;
      inversion H as [|? ? t1 t2 H1 H2]; subst; [destruct Hb|].
    inversion Hf as [|? ? Hfc Hfs]; subst. inversion Hp as [|? ? Pc Ps]; subst. rewrite final_app.
    destruct Hb as [->|Hb].
    - rewrite (proj2 (call_cells _ _ _ H1 Hfc) n i1 i2 i3 i4 He). apply final_none.
      intros s Hs E. destruct (blocks_thread _ _ _ H2 Hfs s Hs) as (b' & Hb' & C).
      apply (proj1 (Forall_forall _ _) Pc b' Hb' (fst s)). split; [|exact C].
      exists n, i1, i2, i3, i4. auto.
    - apply IH; auto.
  Qed.
  Lemma thread_stores_concat sz (threads : list (list (bcall (F := F)))) trs : Forall2 (thread_stores sz) (map (map b_call) threads) trs ->
    thread_stores sz (map b_call (concat threads)) (concat trs).
  Proof.
    assert (App : forall cs t ds u, thread_stores (F := F) sz cs t -> thread_stores sz ds u -> thread_stores sz (cs ++ ds) (t ++ u)).
    { induction 1 as [|c cs t ts Hc _ IH]; intros Hd; [exact Hd|].
      cbn [app]. rewrite <- app_assoc. constructor; auto. }
    revert trs. induction threads as [|bs threads IH]; intros trs H; inversion H; subst; [constructor|].
    cbn [concat]. rewrite map_app. apply App; auto.
  Qed.
  Lemma ord_app_inv {A} (R : A -> A -> Prop) l1 l2 : ForallOrdPairs R (l1 ++ l2) ->
    ForallOrdPairs R l1 /\ ForallOrdPairs R l2 /\ forall x y, In x l1 -> In y l2 -> R x y.
  Proof.
    induction l1 as [|x l1 IH]; cbn [app]; intros H; [split; [constructor|split; [exact H|intros ? ? []]]|].
    inversion H as [|? ? Hh Ht]; subst. destruct (IH Ht) as (A1 & A2 & A3). apply Forall_app in Hh as [Ha Hb].
    split; [constructor; assumption|]. split; [exact A2|]. intros u v [->|Hu] Hv; [|apply A3; assumption].
    exact (proj1 (Forall_forall _ _) Hb v Hv).
  Qed.
  Lemma threads_disj sz (threads : list (list (bcall (F := F)))) trs : Forall2 (thread_stores sz) (map (map b_call) threads) trs ->
    Forall (fills sz) (concat threads) -> ForallOrdPairs blocks_apart (concat threads) ->
    ForallOrdPairs disj trs.
  Proof.
    revert trs. induction threads as [|bs threads IH]; intros trs H Hf Hp; inversion H as [|? t ? ts H1 H2]; subst; [constructor|].
    cbn [concat] in Hf, Hp. apply Forall_app in Hf as [Hf1 Hf2]. destruct (ord_app_inv _ _ _ Hp) as (P1 & P2 & P3).
    constructor; [|apply IH; assumption].
    apply Forall_forall. intros u Hu s s' Hs Hs' E.
    destruct (blocks_thread _ _ _ H1 Hf1 s Hs) as (b & Hb & C).
    destruct (blocks_thread sz (concat threads) (concat ts) (thread_stores_concat _ _ _ H2) Hf2 s') as (b' & Hb' & C').
    { apply in_concat. eauto. }
    apply (P3 b b' Hb Hb' (fst s)). split; [exact C|]. rewrite E. exact C'.
  Qed.

  Theorem blocks_interleave sz (threads : list (list (bcall (F := F)))) trs (a : arr F) :
    asize a = sz ->
    Forall2 (thread_stores sz) (map (map b_call) threads) trs ->
    Forall (fills sz) (concat threads) ->
    ForallOrdPairs blocks_apart (concat threads) ->
    (forall a' rest, steps (a, trs) (a', rest) -> finished rest \/ exists next, step (a', rest) next) /\
    (forall a' rest, steps (a, trs) (a', rest) -> finished rest ->
      asize a' = sz /\
      (forall b, In b (concat threads) -> forall n i1 i2 i3 i4, elem b n i1 i2 i3 i4 ->
         rd a' (at_ b n i1 i2 i3 i4) = Some (b_val b n i1 i2 i3 i4)) /\
      (forall x, (forall b, In b (concat threads) -> ~ covers b x) -> acell a' x = acell a x)) /\
    (forall a' rest, steps (a, trs) (a', rest) -> finished rest ->
      exists r, run_calls (map b_call (concat threads)) a = Some r /\ asize a' = asize r /\
        forall x, acell a' x = acell r x).
  Proof.
    intros Ha Ht Hf Hp. pose proof (threads_disj _ _ _ Ht Hf Hp) as D.
    destruct (threads_ok _ _ _ Ht a Ha) as (I & r & Er & Sr & Cr).
    pose proof (thread_stores_concat _ _ _ Ht) as Hc.
    split; [|split].
    - intros a' rest H. destruct (steps_inside _ _ H) as [S I'].
      { cbn [fst snd]. rewrite Ha. exact I. }
      cbn [fst snd] in S, I'. apply can_go_on. rewrite S. exact I'.
    - intros a' rest H Hfin. destruct (interleavings_agree _ _ _ _ D H Hfin) as [S C].
      split; [congruence|]. split.
      + intros b Hb n i1 i2 i3 i4 He.
        assert (E : acell a' (at_ b n i1 i2 i3 i4) = Some (b_val b n i1 i2 i3 i4)).
        { rewrite C, cell_stores. eapply blocks_final; eassumption. }
        apply rd_spec. split; [|exact E].
        destruct (thread_ok _ _ _ Hc a Ha) as (Ic & _).
        destruct (in_dec Z.eq_dec (at_ b n i1 i2 i3 i4) (map fst (concat trs))) as [Hi|Hi].
        * apply in_map_iff in Hi as (s & Es & Hs). pose proof (proj1 (Forall_forall _ _) Ic s Hs) as Q. cbv beta in Q. lia.
        * exfalso. pose proof (blocks_final _ _ _ Hc Hf Hp b Hb n i1 i2 i3 i4 He None) as Q.
          rewrite final_none in Q; [discriminate|]. intros s Hs Es. apply Hi. apply in_map_iff. exists s. auto.
      + intros x Hx. rewrite C, cell_stores. apply final_none. intros s Hs E.
        destruct (blocks_thread _ _ _ Hc Hf s Hs) as (b & Hb & Cv). apply (Hx b Hb). rewrite E. exact Cv.
    - intros a' rest H Hfin. destruct (interleavings_agree _ _ _ _ D H Hfin) as [S C].
      exists r. rewrite concat_map. split; [exact Er|]. split; [congruence|].
      intros x. rewrite C, Cr, cell_stores. reflexivity.
  Qed.
End Mach.
