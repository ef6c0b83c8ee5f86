(** PropsThread.v — property C45: threads filling disjoint blocks of one array.

    ThreadModel.v: [performs sz c tr] says that on every array of [sz] cells [c] succeeds and its effect is
    the list of stores [tr]; [thread_stores] gives the stores of a thread running a list of calls;
    [steps] lets any thread perform its next store at any time; [finished] means that no store is left. *)
From Verif Require Import Base BasModel EnvModel OutModel OutSpec OutSetup ThreadModel ThreadProof ThreadFinal ThreadMat.

(** A driver writes its output and nothing it does depends on what the output array holds: it fails
    whatever the array holds, or it performs a fixed list of stores inside the array. *)
Theorem C45_write_only {F} (zero : F) add mul coef c sz :
  driver zero add mul coef c ->
  (forall a, asize a = sz -> c a = None) \/ exists tr, performs sz c tr.
Proof. exact (drivers_wo zero add mul coef c sz). Qed.
Print Assumptions C45_write_only.

(** Any number of threads, each making any number of driver calls, all blocks disjoint: no run gets stuck,
    every complete run leaves every block with the values the call gives alone and every other cell
    unchanged, which is also what the calls leave when one thread makes them all. *)
Theorem C45_interleave {F} (zero : F) add mul coef sz (threads : list (list (bcall (F := F)))) (a : arr F) :
  asize a = sz ->
  (forall b, In b (concat threads) -> 0 <= c_off (b_call b) /\ driver zero add mul coef (c_fun (b_call b))) ->
  Forall (fills sz) (concat threads) ->
  ForallOrdPairs blocks_apart (concat threads) ->
  (exists trs, Forall2 (thread_stores sz) (map (map b_call) threads) trs) /\
  forall trs, Forall2 (thread_stores sz) (map (map b_call) threads) trs ->
  (forall a' rest, steps (a, trs) (a', rest) -> finished rest \/ exists next, step (a', rest) next) /\
  (forall a' rest, steps (a, trs) (a', rest) -> finished rest ->
    asize a' = sz /\
    (forall b, In b (concat threads) -> forall n i1 i2 i3 i4, elem b n i1 i2 i3 i4 ->
       rd a' (at_ b n i1 i2 i3 i4) = Some (b_val b n i1 i2 i3 i4)) /\
    (forall x, (forall b, In b (concat threads) -> ~ covers b x) -> acell a' x = acell a x)) /\
  (forall a' rest, steps (a, trs) (a', rest) -> finished rest ->
    exists r, run_calls (map b_call (concat threads)) a = Some r /\ asize a' = asize r /\
      forall x, acell a' x = acell r x).
Proof.
  intros Ha Hd Hf Hp. split; [exact (threads_exist zero add mul coef sz threads Hd Hf)|].
  intros trs Ht. exact (blocks_interleave sz threads trs a Ha Ht Hf Hp).
Qed.
Print Assumptions C45_interleave.

(** The usual parallel assembly.  [nbas] shells with first rows [loc] (the ao_loc of C02), each pair (i,j) at
    most once in the work list of some thread, each call through the pointer to the pair's first element of the
    nao x nao matrix with dims = {nao, nao}: after every interleaving element (I,J) of every evaluated pair
    holds the contracted integral, and no other cell has changed. *)
Theorem C45_matrix {F} (zero : F) add mul coef (nbas : Z) (l nctr loc : Z -> Z) (ng : ngT)
    (e : Z -> Z -> envs) (gctr : Z -> Z -> arr F) (x : Z -> Z -> Z -> F) sz (threads : list (list (Z * Z))) trs (a : arr F) :
  (forall i, 0 <= i < nbas -> 0 <= l i <= 15 /\ 0 <= nctr i) ->
  loc 0 = 0 ->
  (forall i, 0 <= i < nbas -> loc (i + 1) = loc i + CINTlen_cart (l i) * nctr i) ->
  (forall i j, 0 <= i < nbas -> 0 <= j < nbas -> env1 ng (l i) (l j) (nctr i) (nctr j) (e i j)) ->
  (forall i j, 0 <= i < nbas -> 0 <= j < nbas ->
    reads (gctr i j) (ncompA ng * (nf (e i j) * nctr i * nctr j)) (x i j)) ->
  (forall i j, In (i, j) (concat threads) -> 0 <= i < nbas /\ 0 <= j < nbas) -> NoDup (concat threads) ->
  let nao := loc nbas in
  let rows i := CINTlen_cart (l i) * nctr i in
  let calls := map (map (fun p : Z * Z => let '(i, j) := p in mkcall (loc i + nao * loc j) (fun out =>
      CINT1e_drv_tail zero add mul coef CartK true (Some (arr4 nao nao 1 1)) out (gctr i j) (e i j)))) threads in
  asize a = sz -> ncompA ng * (nao * nao) <= sz ->
  (exists trs, Forall2 (thread_stores sz) calls trs) /\
  (Forall2 (thread_stores sz) calls trs ->
  (forall a' rest, steps (a, trs) (a', rest) -> finished rest \/ exists next, step (a', rest) next) /\
  (forall a' rest, steps (a, trs) (a', rest) -> finished rest ->
    forall i j, In (i, j) (concat threads) -> forall n I J, 0 <= n < ncompA ng -> 0 <= I < rows i -> 0 <= J < rows j ->
      rd a' ((n * nao + loc j + J) * nao + loc i + I) =
        Some (cart2 (x i j) (CINTlen_cart (l i)) (CINTlen_cart (l j)) (nctr i) (nctr j) n I J)) /\
  (forall a' rest, steps (a, trs) (a', rest) -> finished rest ->
    forall y, (forall i j n I J, In (i, j) (concat threads) -> 0 <= n < ncompA ng -> 0 <= I < rows i -> 0 <= J < rows j ->
      y <> (n * nao + loc j + J) * nao + loc i + I) -> acell a' y = acell a y)).
Proof.
  intros. eapply (matrix_ok zero add mul coef nbas l nctr loc ng); eauto.
Qed.
Print Assumptions C45_matrix.

(** A call on an s and a p shell with leading dimension 2: its stores, in order *)
Example C45_ex : performs 6 (fun out => CINT1e_drv_tail 0 Z.add Z.mul (fun _ => 0) CartK true (Some (arr4 2 3 1 1)) out
    (of_fun 3 (fun i => i + 7)) (init_int1e (mkng 0 0 0 0 0 1 1 1) 0 1 1 1)) [(0, 7); (2, 8); (4, 9)].
Proof.
  split; [repeat constructor; cbn; lia|]. intros [n f] H. cbn in H. subst n. reflexivity.
Qed.
(** Without disjoint blocks the end result depends on the interleaving: two threads storing 1 and 2 into cell 0. *)
Example C45_overlap : exists r1 r2 : arr Z,
  steps (uninit 1, [[(0, 1)]; [(0, 2)]]) (r1, [[]; []]) /\ steps (uninit 1, [[(0, 1)]; [(0, 2)]]) (r2, [[]; []]) /\
  rd r1 0 = Some 2 /\ rd r2 0 = Some 1.
Proof.
  pose (u := uninit (A := Z) 1).
  exists (store1 (store1 u (0, 1)) (0, 2)), (store1 (store1 u (0, 2)) (0, 1)). split; [|split; [|split]].
  - eapply steps_step; [apply (step_store u (store1 u (0, 1)) [] (0, 1) [] [[(0, 2)]]); reflexivity|].
    eapply steps_step; [apply (step_store (store1 u (0, 1)) (store1 (store1 u (0, 1)) (0, 2)) [[]] (0, 2) [] []); reflexivity|apply steps_refl].
  - eapply steps_step; [apply (step_store u (store1 u (0, 2)) [[(0, 1)]] (0, 2) [] []); reflexivity|].
    eapply steps_step; [apply (step_store (store1 u (0, 2)) (store1 (store1 u (0, 2)) (0, 1)) [] (0, 1) [] [[]]); reflexivity|apply steps_refl].
  - reflexivity.
  - reflexivity.
Qed.
