(** GiaoModel.v — the early returns of the gauge-origin entry points: when both shells of a pair are
    the same shell, R_i - R_j = 0 and the generated code stores zeros instead of calling the driver.

    The pointer [out] is not NULL here (size queries go to the driver). *)
From Coq Require Import String.
From Verif Require Import Base EnvModel OpSpec OutModel SpinorModel IntgModel IntgSpec.
Local Open Scope Z_scope.

(** The tests of each entry point; the _cart, _sph and _spinor functions of a name have the same.
    gaunt1.c:910-952, int3c2e.c:538-580, intor1.c:552-934, intor2.c:90-994, intor3.c, intor4.c
    (all in src/autocode; grep "shls[0] == envs.shls[1]" and "shls[2] == envs.shls[3]") *)
Definition same_pair : list (string * list (centre * centre)) :=
  [("int2e_gssp1ssp2", [(CI, CJ)]); ("int3c2e_ig1", [(CI, CJ)]);
   ("int1e_a01gp", [(CI, CJ)]); ("int1e_igkin", [(CI, CJ)]); ("int1e_igovlp", [(CI, CJ)]); ("int1e_ignuc", [(CI, CJ)]);
   ("int2e_ig1", [(CI, CJ)]); ("int2e_gg1", [(CI, CJ)]); ("int2e_g1g2", [(CI, CJ); (CK, CL)]);
   ("int2e_ipvg1_xp1", [(CI, CJ)]); ("int2e_ipvg2_xp1", [(CK, CL)]);
   ("int1e_govlp", [(CI, CJ)]); ("int1e_gnuc", [(CI, CJ)]); ("int1e_spgsp", [(CI, CJ)]);
   ("int1e_spgnucsp", [(CI, CJ)]); ("int1e_spgsa01", [(CI, CJ)]);
   ("int2e_g1", [(CI, CJ)]); ("int2e_spgsp1", [(CI, CJ)]); ("int2e_g1spsp2", [(CI, CJ)]); ("int2e_spgsp1spsp2", [(CI, CJ)])]%string.

(** envs.shls[0] == envs.shls[1] etc. *)
Definition slot (c : centre) : Z := match c with CI => 0 | CJ => 1 | CK => 2 | CL => 3 end.
Definition early (name : string) (shls : Z -> Z) : bool :=
  existsb (fun r => String.eqb (fst r) name && existsb (fun p => shls (slot (fst p)) =? shls (slot (snd p))) (snd r)) same_pair.

Section Fill.
  Context {F : Type} (zero : F).

  (** the loop over the components: [nout] doubles (complex numbers) from one to the next *)
  Definition zero_loop (set0 : arr F -> Z -> arr Z -> arr Z -> bool -> option (arr F)) (n_comp : Z) (nout : arr Z -> option Z)
      (counts : arr Z) (dims : option (arr Z)) (out : arr F) : option (arr F) :=
    let d := match dims with None => counts | Some d => d end in
    n <- nout d ;;
    for_ 0 n_comp (fun i out => set0 out (n * i) d counts (match dims with None => true | Some _ => false end)) out.

  (** intor1.c:552-562 (cart), 573-583 (sph), 594-604 (spinor) *)
  Definition zero_1e_cart (dims : option (arr Z)) (out : arr F) (e : envs) : option (arr F) :=
    zero_loop (c2s_dset0 zero) (ncomp_e1 e * ncomp_tensor e) nout2 (arr4 (nfi e * i_ctr e) (nfj e * j_ctr e) 1 1) dims out.
  Definition zero_1e_sph (dims : option (arr Z)) (out : arr F) (e : envs) : option (arr F) :=
    zero_loop (c2s_dset0 zero) (ncomp_e1 e * ncomp_tensor e) nout2 (arr4 ((i_l e * 2 + 1) * i_ctr e) ((j_l e * 2 + 1) * j_ctr e) 1 1) dims out.
  Definition zero_1e_spinor (i_kp j_kp : Z) (dims : option (arr Z)) (out : arr F) (e : envs) : option (arr F) :=
    zero_loop (c2s_zset0 zero) (ncomp_tensor e) nout2
      (arr4 (len_spinor i_kp (i_l e) * i_ctr e) (len_spinor j_kp (j_l e) * j_ctr e) 1 1) dims out.

  (** int3c2e.c:538-549, 559-570, 580-591 *)
  Definition zero_3c_cart (dims : option (arr Z)) (out : arr F) (e : envs) : option (arr F) :=
    zero_loop (c2s_dset0 zero) (ncomp_e1 e * ncomp_e2 e * ncomp_tensor e) nout3
      (arr4 (nfi e * i_ctr e) (nfj e * j_ctr e) (nfk e * k_ctr e) 1) dims out.
  Definition zero_3c_sph (dims : option (arr Z)) (out : arr F) (e : envs) : option (arr F) :=
    zero_loop (c2s_dset0 zero) (ncomp_e1 e * ncomp_e2 e * ncomp_tensor e) nout3
      (arr4 ((i_l e * 2 + 1) * i_ctr e) ((j_l e * 2 + 1) * j_ctr e) ((k_l e * 2 + 1) * k_ctr e) 1) dims out.
  Definition zero_3c_spinor (i_kp j_kp : Z) (dims : option (arr Z)) (out : arr F) (e : envs) : option (arr F) :=
    zero_loop (c2s_zset0 zero) (ncomp_tensor e) nout3
      (arr4 (len_spinor i_kp (i_l e) * i_ctr e) (len_spinor j_kp (j_l e) * j_ctr e) ((k_l e * 2 + 1) * k_ctr e) 1) dims out.

  (** gaunt1.c:910-919, 931-940, 952-961 *)
  Definition zero_2e_cart (dims : option (arr Z)) (out : arr F) (e : envs) : option (arr F) :=
    zero_loop (c2s_dset0 zero) (ncomp_e1 e * ncomp_e2 e * ncomp_tensor e) nout4
      (arr4 (nfi e * i_ctr e) (nfj e * j_ctr e) (nfk e * k_ctr e) (nfl e * l_ctr e)) dims out.
  Definition zero_2e_sph (dims : option (arr Z)) (out : arr F) (e : envs) : option (arr F) :=
    zero_loop (c2s_dset0 zero) (ncomp_e1 e * ncomp_e2 e * ncomp_tensor e) nout4
      (arr4 ((i_l e * 2 + 1) * i_ctr e) ((j_l e * 2 + 1) * j_ctr e) ((k_l e * 2 + 1) * k_ctr e) ((l_l e * 2 + 1) * l_ctr e)) dims out.
  Definition zero_2e_spinor (i_kp j_kp k_kp l_kp : Z) (dims : option (arr Z)) (out : arr F) (e : envs) : option (arr F) :=
    zero_loop (c2s_zset0 zero) (ncomp_tensor e) nout4
      (arr4 (len_spinor i_kp (i_l e) * i_ctr e) (len_spinor j_kp (j_l e) * j_ctr e)
            (len_spinor k_kp (k_l e) * k_ctr e) (len_spinor l_kp (l_l e) * l_ctr e)) dims out.
End Fill.
