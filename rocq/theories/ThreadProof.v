(** ThreadProof.v — the drivers only store into their output array, and stores of threads with
    disjoint cells commute. *)
From Verif Require Import Base BasModel FblasModel EnvModel OutModel OutSpec ThreadModel.

Section WO.
  Context {F : Type} (sz : Z).
  Notation arrF := (arr F).

  (** fails on every array of this size, or performs a fixed list of stores *)
  Definition WO (c : arrF -> option arrF) : Prop :=
    (forall a, asize a = sz -> c a = None) \/ exists tr, performs sz c tr.
  (** the same with a further result that does not depend on the array *)
  Definition WOT {T} (c : arrF -> option (arrF * T)) : Prop :=
    (forall a, asize a = sz -> c a = None) \/
    exists tr t, inside sz tr /\ forall a, asize a = sz -> c a = Some (stores tr a, t).

  Lemma stores_size tr : forall a : arrF, asize (stores tr a) = asize a.
  Proof. induction tr as [|s tr IH]; intros a; [reflexivity|]. exact (IH (store1 a s)). Qed.
  Lemma stores_app t1 t2 (a : arrF) : stores (t1 ++ t2) a = stores t2 (stores t1 a).
  Proof. unfold stores. apply fold_left_app. Qed.
  Lemma inside_app t1 t2 : inside (F := F) sz t1 -> inside sz t2 -> inside sz (t1 ++ t2).
  Proof. intros. apply Forall_app. split; assumption. Qed.

  Lemma wo_ret : WO (fun a => Some a).
  Proof. right. exists []. split; [constructor|]. reflexivity. Qed.
  Lemma wot_ret {T} (t : T) : WOT (fun a => Some (a, t)).
  Proof. right. exists [], t. split; [constructor|]. reflexivity. Qed.
  Lemma wo_none : WO (fun _ => None).
  Proof. left. reflexivity. Qed.
  Lemma wot_none {T} : WOT (T := T) (fun _ => None).
  Proof. left. reflexivity. Qed.
  Lemma wo_wr i v : WO (fun a => wr a i v).
  Proof.
    destruct (Z_le_dec 0 i); [destruct (Z_lt_dec i sz)|].
    - right. exists [(i, v)]. split; [constructor; [cbn; lia|constructor]|].
      intros a Ha. unfold wr, inb. replace ((0 <=? i) && (i <? asize a)) with true by lia. reflexivity.
    - left. intros a Ha. unfold wr, inb. replace ((0 <=? i) && (i <? asize a)) with false by lia. reflexivity.
    - left. intros a Ha. unfold wr, inb. replace ((0 <=? i) && (i <? asize a)) with false by lia. reflexivity.
  Qed.
  Lemma wo_pure {X} (m : option X) (k : X -> arrF -> option arrF) :
    (forall x, WO (k x)) -> WO (fun a => bind m (fun x => k x a)).
  Proof. intros H. destruct m; cbn [bind]; [apply H|apply wo_none]. Qed.
  Lemma wot_pure {X T} (m : option X) (k : X -> arrF -> option (arrF * T)) :
    (forall x, WOT (k x)) -> WOT (fun a => bind m (fun x => k x a)).
  Proof. intros H. destruct m; cbn [bind]; [apply H|apply wot_none]. Qed.

  Lemma wo_seq c k : WO c -> WO k -> WO (fun a => bind (c a) k).
  Proof.
    intros [Hc|(t1 & I1 & H1)] Hk.
    - left. intros a Ha. rewrite (Hc a Ha). reflexivity.
    - destruct Hk as [Hk|(t2 & I2 & H2)].
      + left. intros a Ha. rewrite (H1 a Ha). cbn [bind]. apply Hk. rewrite stores_size. exact Ha.
      + right. exists (t1 ++ t2). split; [apply inside_app; assumption|].
        intros a Ha. rewrite (H1 a Ha). cbn [bind]. rewrite H2 by (rewrite stores_size; exact Ha).
        rewrite stores_app. reflexivity.
  Qed.
  Lemma wot_seq {T} c (k : arrF -> option (arrF * T)) : WO c -> WOT k -> WOT (fun a => bind (c a) k).
  Proof.
    intros [Hc|(t1 & I1 & H1)] Hk.
    - left. intros a Ha. rewrite (Hc a Ha). reflexivity.
    - destruct Hk as [Hk|(t2 & t & I2 & H2)].
      + left. intros a Ha. rewrite (H1 a Ha). cbn [bind]. apply Hk. rewrite stores_size. exact Ha.
      + right. exists (t1 ++ t2), t. split; [apply inside_app; assumption|].
        intros a Ha. rewrite (H1 a Ha). cbn [bind]. rewrite H2 by (rewrite stores_size; exact Ha).
        rewrite stores_app. reflexivity.
  Qed.
  Lemma wo_seqT {T} (c : arrF -> option (arrF * T)) (k : arrF * T -> option arrF) :
    WOT c -> (forall t, WO (fun a => k (a, t))) -> WO (fun a => bind (c a) k).
  Proof.
    intros [Hc|(t1 & t & I1 & H1)] Hk.
    - left. intros a Ha. rewrite (Hc a Ha). reflexivity.
    - destruct (Hk t) as [Hk'|(t2 & I2 & H2)].
      + left. intros a Ha. rewrite (H1 a Ha). cbn [bind]. apply Hk'. rewrite stores_size. exact Ha.
      + right. exists (t1 ++ t2). split; [apply inside_app; assumption|].
        intros a Ha. rewrite (H1 a Ha). cbn [bind]. rewrite H2 by (rewrite stores_size; exact Ha).
        rewrite stores_app. reflexivity.
  Qed.
  Lemma wot_seqT {T U} (c : arrF -> option (arrF * T)) (k : arrF * T -> option (arrF * U)) :
    WOT c -> (forall t, WOT (fun a => k (a, t))) -> WOT (fun a => bind (c a) k).
  Proof.
    intros [Hc|(t1 & t & I1 & H1)] Hk.
    - left. intros a Ha. rewrite (Hc a Ha). reflexivity.
    - destruct (Hk t) as [Hk'|(t2 & u & I2 & H2)].
      + left. intros a Ha. rewrite (H1 a Ha). cbn [bind]. apply Hk'. rewrite stores_size. exact Ha.
      + right. exists (t1 ++ t2), u. split; [apply inside_app; assumption|].
        intros a Ha. rewrite (H1 a Ha). cbn [bind]. rewrite H2 by (rewrite stores_size; exact Ha).
        rewrite stores_app. reflexivity.
  Qed.

  Lemma wo_forN body n : forall lo, (forall i, WO (body i)) -> WO (forN n lo body).
  Proof.
    induction n as [|n IH]; intros lo H; cbn [forN]; [apply wo_ret|].
    apply (wo_seq (body lo) (forN n (lo + 1) body)); auto.
  Qed.
  Lemma wo_for lo hi body : (forall i, WO (body i)) -> WO (fun a => for_ lo hi body a).
  Proof. intros H. exact (wo_forN body _ lo H). Qed.
  Lemma wot_forN {T} body n : forall lo (t : T), (forall i t, WOT (fun a => body i (a, t))) ->
    WOT (fun a => forN n lo body (a, t)).
  Proof.
    induction n as [|n IH]; intros lo t H; cbn [forN]; [apply wot_ret|].
    apply (wot_seqT (fun a => body lo (a, t)) (forN n (lo + 1) body)); auto.
  Qed.
  Lemma wot_for {T} lo hi body (t : T) : (forall i t, WOT (fun a => body i (a, t))) ->
    WOT (fun a => for_ lo hi body (a, t)).
  Proof. intros H. exact (wot_forN body _ lo t H). Qed.
  Lemma wot_for_by {T} lo hi st body (t : T) : (forall i t, WOT (fun a => body i (a, t))) ->
    WOT (fun a => for_by lo hi st body (a, t)).
  Proof. intros H. unfold for_by. apply wot_for. intros. apply H. Qed.
End WO.

(** one structural step *)
Ltac wo1 :=
  cbv beta zeta;
  match goal with
  | |- WO _ (fun a => Some a) => apply wo_ret
  | |- WO _ (fun a => Some (fst (a, _))) => apply wo_ret
  | |- WOT _ (fun a => Some (a, _)) => apply wot_ret
  | |- WO _ (fun a => wr a _ _) => apply wo_wr
  | |- WO _ (fun a => bind ?m (@?k a)) =>
      apply (wo_pure _ m (fun x a => k a x)); let x := fresh in intros x; cbv beta;
      repeat match type of x with prod _ _ => let y := fresh in destruct x as [y x] end
  | |- WOT _ (fun a => bind ?m (@?k a)) =>
      apply (wot_pure _ m (fun x a => k a x)); let x := fresh in intros x; cbv beta;
      repeat match type of x with prod _ _ => let y := fresh in destruct x as [y x] end
  | |- WO _ (fun a => for_ _ _ _ a) => apply wo_for; intros ?
  | |- WO _ (for_ _ _ _) => apply wo_for; intros ?
  | |- WO _ Some => apply wo_ret
  | |- WOT _ (fun a => for_ _ _ _ (a, _)) =>
      apply wot_for; let t := fresh in intros ? t;
      repeat match type of t with prod _ _ => let y := fresh in destruct t as [y t] end
  | |- WOT _ (fun a => for_by _ _ _ _ (a, _)) =>
      apply wot_for_by; let t := fresh in intros ? t;
      repeat match type of t with prod _ _ => let y := fresh in destruct t as [y t] end
  end.

Section Routines.
  Context {F : Type} (zero : F) (sz : Z).

  Lemma wo_dcopy_ij o g ni nj mi mj : WO sz (fun out : arr F => dcopy_ij out o g ni nj mi mj).
  Proof. unfold dcopy_ij. repeat wo1. Qed.

  Lemma wo_dcopy_grids o g ng ni nj mg mi mj :
    WO sz (fun out : arr F => dcopy_grids_ij out o g ng ni nj mg mi mj).
  Proof.
    unfold dcopy_grids_ij. cbv zeta.
    apply wo_seqT; [|intros [? ?]; apply wo_ret].
    repeat wo1. apply wot_seq; repeat wo1.
  Qed.

  Lemma wo_row_list is g pg po : WO sz (fun out : arr F => row_list is g pg po out).
  Proof.
    induction is as [|i is IH]; cbn [row_list]; [apply wo_ret|].
    wo1. apply wo_seq; [apply wo_wr|exact IH].
  Qed.
  Lemma wo_row_loop mi g pg po : WO sz (fun out : arr F => row_loop mi g pg po out).
  Proof. unfold row_loop. repeat wo1. Qed.
  Lemma wo_iklj_rows row o g ni nij nijk mi mik mikl mj mk ml :
    (forall g pg po, WO sz (row g pg po)) ->
    WO sz (fun out : arr F => iklj_rows row out o g ni nij nijk mi mik mikl mj mk ml).
  Proof.
    intros H. unfold iklj_rows. apply wo_seqT; [|intros [? ?]; apply wo_ret].
    repeat wo1. apply wot_seq; repeat wo1. apply H.
  Qed.
  Lemma wo_dcopy_iklj o g ni nj nk nl mi mj mk ml :
    WO sz (fun out : arr F => dcopy_iklj out o g ni nj nk nl mi mj mk ml).
  Proof.
    unfold dcopy_iklj. cbv zeta.
    repeat match goal with |- WO _ (fun out => match ?m with _ => _ end) => destruct m end;
      apply wo_iklj_rows; intros; (apply wo_row_list || apply wo_row_loop).
  Qed.

  Lemma wo_dset0 o d c al : WO sz (fun out : arr F => c2s_dset0 zero out o d c al).
  Proof.
    unfold c2s_dset0. do 3 wo1. destruct al; [repeat wo1|]. do 4 wo1.
    apply wo_seqT; [|intros ?; apply wo_ret]. wo1. apply wot_seq; repeat wo1.
  Qed.
  Lemma wo_grids_dset0 o d c : WO sz (fun out : arr F => c2s_grids_dset0 zero out o d c).
  Proof. unfold c2s_grids_dset0. do 2 wo1. apply wo_dset0. Qed.

  Lemma wo_zset0 o d c al : WO sz (fun out : arr F => c2s_zset0 zero out o d c al).
  Proof.
    assert (Hz : forall x, WO sz (fun out : arr F => zwr0 zero out x)).
    { intros x. unfold zwr0. apply wo_seq; apply wo_wr. }
    unfold c2s_zset0. do 3 wo1. destruct al; [repeat wo1; apply Hz|]. do 4 wo1.
    apply wo_seqT; [|intros ?; apply wo_ret]. wo1. apply wot_seq; repeat wo1. apply Hz.
  Qed.

  Lemma wo_cart_1e o g d e : WO sz (fun out : arr F => c2s_cart_1e out o g d e).
  Proof.
    unfold c2s_cart_1e. do 2 wo1. apply wo_seqT; [|intros ?; apply wo_ret].
    do 2 wo1. apply wot_seq; [apply wo_dcopy_ij|wo1].
  Qed.
  Lemma wo_cart_2e1 o g d e : WO sz (fun out : arr F => c2s_cart_2e1 out o g d e).
  Proof.
    unfold c2s_cart_2e1. do 4 wo1. apply wo_seqT; [|intros ?; apply wo_ret].
    do 4 wo1. apply wot_seq; [apply wo_dcopy_iklj|wo1].
  Qed.
  Lemma wo_cart_3c o g d e : WO sz (fun out : arr F => c2s_cart_3c2e1 out o g d e).
  Proof.
    unfold c2s_cart_3c2e1. do 3 wo1. apply wo_seqT; [|intros ?; apply wo_ret].
    do 3 wo1. apply wot_seq; [apply wo_dcopy_iklj|wo1].
  Qed.
  Lemma wo_cart_grids o g d ngr e : WO sz (fun out : arr F => c2s_cart_1e_grids out o g d ngr e).
  Proof.
    unfold c2s_cart_1e_grids. do 3 wo1. apply wo_seqT; [|intros ?; apply wo_ret].
    do 3 wo1. apply wot_seq; [apply wo_dcopy_grids|wo1].
  Qed.

  Context (add mul : F -> F -> F) (coef : Z -> F).

  Lemma wo_sph_1e o g d e : WO sz (fun out => c2s_sph_1e zero add mul coef out o g d e).
  Proof.
    unfold c2s_sph_1e. do 2 wo1. apply wo_seqT; [|intros ?; apply wo_ret].
    do 6 wo1. apply wot_seq; [apply wo_dcopy_ij|wo1].
  Qed.
  Lemma wo_sph_2e1 o g d e : WO sz (fun out => c2s_sph_2e1 zero add mul coef out o g d e).
  Proof.
    unfold c2s_sph_2e1. do 4 wo1. apply wo_seqT; [|intros ?; apply wo_ret].
    do 4 wo1. match goal with x : arr F * arr F |- _ => destruct x end.
    do 6 wo1. apply wot_seq; [apply wo_dcopy_iklj|wo1].
  Qed.
  Lemma wo_sph_3c o g d e : WO sz (fun out => c2s_sph_3c2e1 zero add mul coef out o g d e).
  Proof.
    unfold c2s_sph_3c2e1. do 3 wo1. apply wo_seqT; [|intros ?; apply wo_ret].
    do 8 wo1. apply wot_seq; [apply wo_dcopy_iklj|wo1].
  Qed.
  Lemma wo_sph_ssc o g d e : WO sz (fun out => c2s_sph_3c2e1_ssc zero add mul coef out o g d e).
  Proof.
    unfold c2s_sph_3c2e1_ssc. cbv zeta. apply wo_seqT; [|intros ?; apply wo_ret].
    do 7 wo1. apply wot_seq; [apply wo_dcopy_iklj|wo1].
  Qed.
  Lemma wo_sph_grids o g d ngr e : WO sz (fun out => c2s_sph_1e_grids zero add mul coef out o g d ngr e).
  Proof.
    unfold c2s_sph_1e_grids. do 3 wo1. apply wo_seqT; [|intros ?; apply wo_ret].
    do 6 wo1. apply wot_seq; [apply wo_dcopy_grids|wo1].
  Qed.

  Lemma wo_drv_tail f s hv nc n no cn d g :
    (forall o g d, WO sz (fun out => f out o g d)) -> (forall o d c al, WO sz (fun out => s out o d c al)) ->
    WO sz (fun out : arr F => drv_tail f s hv nc n no cn d out g).
  Proof.
    intros Hf Hs. unfold drv_tail. cbv zeta. wo1. destruct hv; apply wo_for; intros; auto.
  Qed.

  Lemma wo_1e k hv d g e : WO sz (fun out => CINT1e_drv_tail zero add mul coef k hv d out g e).
  Proof.
    unfold CINT1e_drv_tail. cbv zeta. apply wo_drv_tail; intros.
    - destruct k; [apply wo_sph_1e|apply wo_cart_1e|apply wo_cart_1e].
    - apply wo_dset0.
  Qed.
  Lemma wo_2c2e k hv d g e : WO sz (fun out => CINT2c2e_drv_tail zero add mul coef k hv d out g e).
  Proof.
    unfold CINT2c2e_drv_tail. cbv zeta. apply wo_drv_tail; intros.
    - destruct k; [apply wo_sph_1e|apply wo_cart_1e|apply wo_cart_1e].
    - apply wo_dset0.
  Qed.
  Lemma wo_2e k hv d g e : WO sz (fun out => CINT2e_drv_tail zero add mul coef k hv d out g e).
  Proof.
    unfold CINT2e_drv_tail. cbv zeta. apply wo_drv_tail; intros.
    - destruct k; [apply wo_sph_2e1|apply wo_cart_2e1|apply wo_cart_2e1].
    - apply wo_dset0.
  Qed.
  Lemma wo_3c k ssc hv d g e : WO sz (fun out => CINT3c2e_drv_tail zero add mul coef k ssc hv d out g e).
  Proof.
    unfold CINT3c2e_drv_tail. cbv zeta. apply wo_drv_tail; intros.
    - destruct k; [apply wo_sph_3c|apply wo_cart_3c|apply wo_sph_ssc].
    - apply wo_dset0.
  Qed.
  Lemma wo_grids k hv d ngr g e : WO sz (fun out => CINT1e_grids_drv_tail zero add mul coef k hv d ngr out g e).
  Proof.
    unfold CINT1e_grids_drv_tail. cbv zeta. apply wo_drv_tail; intros.
    - destruct k; [apply wo_sph_grids|apply wo_cart_grids|apply wo_cart_grids].
    - apply wo_grids_dset0.
  Qed.
End Routines.
