(** IntgAll.v — the checks of all entry points, evaluated. *)
From Coq Require Import Reals QArith String.
From Coquelicot Require Import Coquelicot.
From Verif Require Import Base EnvModel OpSpec IntgModel IntgSpec IntgTab IntgStmt IntgCheck IntgFinal.
Local Open Scope Z_scope.
Local Open Scope string_scope.

Definition named (l : list string) (t : ent) : bool := existsb (String.eqb (en_name (t_e t))) l.
Definition parts_names : list string := ["int1e_spspsp"; "int1e_p4"; "int1e_spsigmasp"; "int1e_spsp"; "int1e_sprsp"; "int1e_spgsp"].
Definition except_names : list string :=
  ["int3c1e_ip1_r6_origk"; "int2e_ipvg1_xp1"; "int2e_ipvg2_xp1"; "int2e_breit_r1p2"; "int2e_breit_r2p2"; "int1e_ippnucpip"; "int1e_ipprinvpip"].

Lemma all_checked : forallb (fun t => named except_names t || ent_ok (named parts_names t) cq1 (fun l => l) t) catalogue = true.
Proof. vm_cast_no_check (eq_refl true). Qed.

(** component (a, b) of a 3 x 3 tensor becomes component (b, a) *)
Definition transpose {T} (l : list T) : list T := flat_map (fun k => match nth_error l k with Some v => [v] | None => [] end) [0; 3; 6; 1; 4; 7; 2; 5; 8]%nat.
Definition exc_check : bool :=
  forallb (ent_ok false cq1 transpose) [e_int1e_ippnucpip; e_int1e_ipprinvpip] &&
  forallb (ent_ok false (cneg cq1) (fun l => l)) [e_int2e_breit_r1p2; e_int2e_breit_r2p2].
Lemma exc_checked : exc_check = true.
Proof. vm_cast_no_check (eq_refl true). Qed.

(** with one order more on j *)
Definition more_j (t : ent) : ent :=
  let e := t_e t in
  mkent (mke (en_name e) (en_fun e) (en_fam e)
    (map (fun g => mkng (IINC g) (JINC g + 1) (KINC g) (LINC g) (GSHIFT g) (POS_E1 g) (POS_E2 g) (TENSOR g)) (en_ng e))
    (en_cart e) (en_sph e) (en_spinor e) (en_c2s1 e) (en_c2s2 e)) (t_f t) (t_d t).
Lemma more_j_checked : ent_ok false cq1 (fun l => l) (more_j e_int2e_ipvg1_xp1) = true.
Proof. vm_cast_no_check (eq_refl true). Qed.

(** with the missing statement g76 = G1E_D_I of g12 (as all others of this function) *)
Definition with_g76 (t : ent) : ent :=
  let f := t_f t in
  mkent (t_e t) (mkg (g_name f) (g_kind f) (g_nblk f) (g_ops f ++ [GD CI 76 12 (mka (Some 0) (Some 0) (Some 0) None)]) (g_const f) (g_s f) (g_rows f)) (t_d t).
Lemma with_g76_checked : ent_ok false cq1 (fun l => l) (with_g76 e_int3c1e_ip1_r6_origk) = true.
Proof. vm_cast_no_check (eq_refl true). Qed.
