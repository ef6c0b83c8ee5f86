(** PropsLoop2e.v — properties C16, C17, C35 (two-electron loops).  Statements only. *)
From Coq Require Import Ring.
From Verif Require Import Base BasSpec CtrModel LoopSpec Loop2eModel Loop2eSpec Loop2eProof Loop2eFinal.

Section Props.
  Context {F : Type} (zero one : F) (add mul sub : F -> F -> F) (opp : F -> F).
  Hypothesis Rth : ring_theory zero one add mul sub opp (@eq F).
  Variable isz : F -> bool.
  Hypothesis isz_zero : forall c, isz c = true -> c = zero.
  Variables (n_comp nf : Z) (si sj sk sl : shl F) (cfi cfj cfk cfl : Z -> Z -> F).
  Hypothesis Hi : shell_of isz si cfi.
  Hypothesis Hj : shell_of isz sj cfj.
  Hypothesis Hk : shell_of isz sk cfk.
  Hypothesis Hl : shell_of isz sl cfl.
  Hypothesis Hnf : 0 <= nf.
  Hypothesis Hnc : 1 <= n_comp.
  Variables (q : quartets F) (common : F) (m : mem F) (T : Z -> Z -> F).
  Hypothesis Hcaller : caller_holds m (rows4 nf si sj sk sl) n_comp T.

  Notation contracts := (contracts zero add mul n_comp nf si sj sk sl cfi cfj cfk cfl q common T m).

  Theorem C16_loop_nopt : fits m (scratch_general n_comp nf si sj sk sl) ->
    contracts (CINT2e_loop_nopt add mul n_comp nf si sj sk sl common q m).
  Proof. exact (nopt_contracts zero one add mul sub opp Rth isz isz_zero n_comp nf si sj sk sl cfi cfj cfk cfl Hi Hj Hk Hl Hnf Hnc q common m T Hcaller). Qed.

  Theorem C16_loop_opt : fits m (scratch_general n_comp nf si sj sk sl) ->
    contracts (CINT2e_loop add mul n_comp nf si sj sk sl common q m).
  Proof. exact (opt_contracts zero one add mul sub opp Rth isz isz_zero n_comp nf si sj sk sl cfi cfj cfk cfl Hi Hj Hk Hl Hnf Hnc q common m T Hcaller). Qed.

  (** Whatever loop the table selects computes the same thing. *)
  Theorem C17_dispatch : fits m (scratch_any n_comp nf si sj sk sl) ->
    contracts (CINT2e_opt_dispatch add mul n_comp nf si sj sk sl common q m).
  Proof. exact (dispatch_contracts zero one add mul sub opp Rth isz isz_zero n_comp nf si sj sk sl cfi cfj cfk cfl Hi Hj Hk Hl Hnf Hnc q common m T Hcaller). Qed.

  (** The selected loop and the general loops give the same batch and flag. *)
  Theorem C17_same_as_general : fits m (scratch_any n_comp nf si sj sk sl) -> fits m (scratch_general n_comp nf si sj sk sl) ->
    same_outcome n_comp nf si sj sk sl
      (CINT2e_opt_dispatch add mul n_comp nf si sj sk sl common q m)
      (CINT2e_loop add mul n_comp nf si sj sk sl common q m) /\
    same_outcome n_comp nf si sj sk sl
      (CINT2e_opt_dispatch add mul n_comp nf si sj sk sl common q m)
      (CINT2e_loop_nopt add mul n_comp nf si sj sk sl common q m).
  Proof. exact (dispatch_same zero one add mul sub opp Rth isz isz_zero n_comp nf si sj sk sl cfi cfj cfk cfl Hi Hj Hk Hl Hnf Hnc q common m T Hcaller). Qed.

  (** The table selects each specialised loop for exactly the contraction pattern it is
      written for. *)
  Theorem C17_selection :
    CINT2e_opt_dispatch add mul n_comp nf si sj sk sl =
      (match s_ctr si =? 1, s_ctr sj =? 1, s_ctr sk =? 1, s_ctr sl =? 1 with
       | true, true, true, true => CINT2e_1111_loop add mul
       | false, true, true, true => CINT2e_n111_loop add mul
       | true, false, true, true => CINT2e_1n11_loop add mul
       | true, true, false, true => CINT2e_11n1_loop add mul
       | true, true, true, false => CINT2e_111n_loop add mul
       | _, _, _, _ => CINT2e_loop add mul
       end) n_comp nf si sj sk sl.
  Proof. exact (dispatch_select add mul n_comp nf si sj sk sl). Qed.

  (** Scratch contents are irrelevant: [m2] has the same caller buffer and flag as [m] and
      otherwise arbitrary contents, flags included. *)
  Theorem C35_2e_scratch (m2 : mem F) :
    buf m2 5%nat = buf m 5%nat -> flg m2 5%nat = flg m 5%nat ->
    (fits m (scratch_any n_comp nf si sj sk sl) -> fits m2 (scratch_any n_comp nf si sj sk sl) ->
    same_outcome n_comp nf si sj sk sl
      (CINT2e_opt_dispatch add mul n_comp nf si sj sk sl common q m)
      (CINT2e_opt_dispatch add mul n_comp nf si sj sk sl common q m2)) /\
    (fits m (scratch_general n_comp nf si sj sk sl) -> fits m2 (scratch_general n_comp nf si sj sk sl) ->
    same_outcome n_comp nf si sj sk sl
      (CINT2e_loop_nopt add mul n_comp nf si sj sk sl common q m)
      (CINT2e_loop_nopt add mul n_comp nf si sj sk sl common q m2)).
  Proof. exact (scratch_same zero one add mul sub opp Rth isz isz_zero n_comp nf si sj sk sl cfi cfj cfk cfl Hi Hj Hk Hl Hnf Hnc q common m T Hcaller m2). Qed.
End Props.
Print Assumptions C16_loop_nopt.
Print Assumptions C16_loop_opt.
Print Assumptions C17_dispatch.
Print Assumptions C17_same_as_general.
Print Assumptions C17_selection.
Print Assumptions C35_2e_scratch.

(** Every coefficient array gives a shell: [shell_of] is satisfiable. *)
Theorem C16_shell_exists {F} (isz : F -> bool) (c : arr F) (np nctr : Z) (cf : Z -> Z -> F) :
  coeffs c np nctr cf -> exists s, s_np s = np /\ s_ctr s = nctr /\ shell_of isz s cf.
Proof. exact (shell_exists isz c np nctr cf). Qed.
Print Assumptions C16_shell_exists.

(** Concrete run over the integers: i has 2 primitives and 2 contractions, j 2 primitives
    and 1 contraction, k and l one each; one Cartesian function, two components; the
    quartet (ip=1, jp=0) is screened; the caller's buffer already holds 100..103. *)
Definition ex_isz (z : Z) : bool := z =? 0.
Definition ex_q : quartets Z :=
  mkq false (fun _ _ => false) (fun ip jp _ _ => (ip =? 1) && (jp =? 0)) (fun _ _ _ _ => true)
    (fun ip jp => 1 + ip) (fun _ _ => 1) (fun ip jp _ _ n => 1 + jp + 10 * n).
Definition ex_mem : mem Z :=
  mkmem (fun t => if Nat.eqb t 5 then of_fun 4 (fun i => 100 + i) else uninit 8) (fun t => negb (Nat.eqb t 5)).
Definition ex_list (r : option (mem Z * bool)) : list (option Z) * option bool :=
  match r with
  | Some (m, b) => (map (fun i => rd (buf m 5%nat) i) [0;1;2;3], Some b)
  | None => ([], None)
  end.
Definition ex_run (loop : shl Z -> shl Z -> shl Z -> shl Z -> option (mem Z * bool)) :=
  ex_list (si <- mk_shell ex_isz 2 2 (of_fun 4 (fun i => nth (Z.to_nat i) [2;0;1;3] 0)) ;;
           sj <- mk_shell ex_isz 2 1 (of_fun 2 (fun i => 1 + i)) ;;
           s1 <- mk_shell ex_isz 1 1 (of_fun 1 (fun i => 1)) ;;
           loop si sj s1 s1).
(* values: row ic, component c: 100.. + sum over (ip,jp) of cf_i(ic,ip)*cf_j(jp)*(1+ip)*(1+jp+10c):
   ic=0: 2*1*1*(1+10c) + 2*2*1*(2+10c) = 10 + 60c;  ic=1: 1*(1+10c) + 2*(2+10c) + 3*2*2*(2+10c) = 29 + 150c *)
Example C16_ex : ex_run (fun si sj sk sl => CINT2e_loop_nopt Z.add Z.mul 2 1 si sj sk sl 1 ex_q ex_mem)
  = ([Some 110; Some 130; Some 172; Some 282], Some true).
Proof. vm_compute. reflexivity. Qed.
Example C17_ex : ex_run (fun si sj sk sl => CINT2e_opt_dispatch Z.add Z.mul 2 1 si sj sk sl 1 ex_q ex_mem)
  = ([Some 110; Some 130; Some 172; Some 282], Some true).
Proof. vm_compute. reflexivity. Qed.
(** Scratch filled with sevens, flags inverted: the same values. *)
Definition ex_mem7 : mem Z :=
  mkmem (fun t => if Nat.eqb t 5 then of_fun 4 (fun i => 100 + i) else of_fun 8 (fun _ => 7)) (fun t => false).
Example C35_ex : ex_run (fun si sj sk sl => CINT2e_opt_dispatch Z.add Z.mul 2 1 si sj sk sl 1 ex_q ex_mem7)
  = ([Some 110; Some 130; Some 172; Some 282], Some true).
Proof. vm_compute. reflexivity. Qed.
(** ... and the theorem's hypotheses hold of it. *)
Example C16_ex_hyps : caller_holds ex_mem 2 2 (fun r c => 100 + (c * 2 + r)) /\
  fits ex_mem [(0%nat, 2); (4%nat, 4)].
Proof.
  split; [split; [cbn; lia|]|].
  - intros _ r c Hr Hc. apply rd_spec. cbn. split; [lia|]. replace ((0 <=? c * 2 + r) && (c * 2 + r <? 4)) with true by lia. reflexivity.
  - intros t n [H|[H|[]]]; injection H as <- <-; cbn; lia.
Qed.
