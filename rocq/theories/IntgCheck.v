(** IntgCheck.v — symbolic execution of an integrand and comparison with its documented expression
    (used in the proofs; the theorems of PropsIntg.v do not mention it). *)
From Coq Require Import String QArith.
From Verif Require Import Base EnvModel OpSpec IntgModel IntgSpec IntgTab IntgStmt.
Local Open Scope nat_scope.

Definition v4 : Type := Z * Z * Z * Z.
Definition vg (v : v4) (c : centre) : Z := let '(i, j, k, l) := v in own c i j k l.
Definition vmap2 (f : Z -> Z -> Z) (v w : v4) : v4 :=
  let '(a, b, c, d) := v in let '(a', b', c', d') := w in (f a a', f b b', f c c', f d d').
Definition cs4 : list centre := [CI; CJ; CK; CL].
Definition unit (c : centre) : v4 := own c (1, 0, 0, 0)%Z (0, 1, 0, 0)%Z (0, 0, 1, 0)%Z (0, 0, 0, 1)%Z.
Definition v0 : v4 := (0, 0, 0, 0)%Z.

(** a block: validity relative to the orders of the shells, words by centre *)
Definition blk : Type := v4 * list (list word).
(** a pointer: block and shift *)
Definition sptr : Type := nat * v4.
Definition sst : Type := list sptr * list (option blk).

Definition argv (fam : gfam) (c : centre) (a : garg) : option Z :=
  if used fam c then match a with Some d => if (0 <=? d)%Z then Some d else None | None => None end
  else match a with
       | None => Some 0%Z
       | Some d => if (d =? 0)%Z && negb (match fam, c with F2c2e, CJ => true | _, _ => false end) then Some 0%Z else None
       end.
Definition argsv (fam : gfam) (a : gargs) : option v4 :=
  i <- argv fam CI (a_i a) ;; j <- argv fam CJ (a_j a) ;; k <- argv fam CK (a_k a) ;; l <- argv fam CL (a_l a) ;;
  Some (i, j, k, l).

Definition shifted (v : v4) : bool := negb (forallb (fun c => (vg v c =? 0)%Z) cs4).
(** the target is not touched through the source pointer *)
Definition apartb (t b : nat) (sh : v4) : bool := (t <? b) || (b + (if shifted sh then 2 else 1) <=? t).

(** words with [p] applied first on centre [c] *)
Definition app_word (c : centre) (p : word) (w : list word) : list word := upd_nth (cnum c) (fun w => w ++ p) w.
Definition shift_words (sh : v4) (w : list word) : list word :=
  fold_right (fun c w => app_word c (repeat (X (Own c)) (Z.to_nat (vg sh c))) w) w cs4.

Definition chk (b : bool) : option Datatypes.unit := if b then Some tt else None.
Definition fits (fam : gfam) (ng : ngT) (v : v4) : bool :=
  forallb (fun c => if used fam c then (vg v c <=? incr ng c)%Z else (vg v c =? 0)%Z) cs4.

Definition look (s : sst) (p : nat) : option (nat * v4 * blk) :=
  q <- nth_error (fst s) p ;; ob <- nth_error (snd s) (fst q) ;; b <- ob ;; Some (fst q, snd q, b).

Definition sym_apply (fam : gfam) (ng : ngT) (c : centre) (pr : prim) (t s : nat) (a : gargs) (st : sst) : option sst :=
  q <- look st s ;;
  let '(b, sh, (v, ws)) := q in
  d <- argsv fam a ;;
  let need := vmap2 Z.add (vmap2 Z.add d (unit c)) sh in
  _ <- chk (used fam c && fits fam ng need && apartb t b sh &&
            match nth_error (fst st) t with Some (t', sh') => Nat.eqb t' t && negb (shifted sh') | None => false end) ;;
  let v' := vmap2 Z.min d (vmap2 Z.sub v (vmap2 Z.add (unit c) sh)) in
  Some (fst st, upd_nth t (fun _ => Some (v', map (fun w => app_word c [pr] (shift_words sh w)) ws)) (snd st)).

Definition sym_op (fam : gfam) (ng : ngT) (o : gop) (st : sst) : option sst :=
  match o with
  | GD c t s a => sym_apply fam ng c D t s a st
  | GX c com t s a => sym_apply fam ng c (X (if com then Com else Zero)) t s a st
  | GShift c t s =>
      q <- nth_error (fst st) s ;;
      _ <- chk (used fam c && (t <? length (fst st))%nat) ;;
      Some (upd_nth t (fun _ => (fst q, vmap2 Z.add (snd q) (unit c))) (fst st), snd st)
  | GSum t s =>
      qs <- look st s ;; qt <- look st t ;;
      let '(b, sh, (v, ws)) := qs in let '(b', sh', (v', ws')) := qt in
      _ <- chk (negb (shifted sh) && negb (shifted sh') && negb (Nat.eqb b b')) ;;
      Some (fst st, upd_nth b' (fun _ => Some (vmap2 Z.min v' v, ws' ++ ws)) (snd st))
  end.
Fixpoint sym_ops (fam : gfam) (ng : ngT) (os : list gop) (st : sst) : option sst :=
  match os with [] => Some st | o :: os => st <- sym_op fam ng o st ;; sym_ops fam ng os st end.

Definition sym0 (ng : ngT) (n : nat) : sst :=
  (map (fun k => (k, v0)) (seq 0 n),
   Some ((IINC ng, JINC ng, KINC ng, LINC ng), [[ []; []; []; [] ] : list word]) :: repeat None (n - 1)).

(** words read through a pointer, if all orders up to those of the shells are valid *)
Definition read_words (fam : gfam) (ng : ngT) (st : sst) (p : nat) : option (list (list word)) :=
  q <- look st p ;;
  let '(b, sh, (v, ws)) := q in
  _ <- chk (forallb (fun c => if used fam c then (0 <=? vg sh c)%Z && (vg sh c <=? vg v c)%Z && (vg sh c <=? incr ng c)%Z
                              else (vg sh c =? 0)%Z) cs4) ;;
  Some (map (shift_words sh) ws).

Definition kcount (k : gconst) : list nat :=
  map (fun i => length (filter (fun qa : bool * Z => (Z.of_nat i =? (if fst qa then 3 else 0) + snd qa)%Z) k)) (seq 0 6).
Definition k_ok (k : gconst) : bool := forallb (fun qa : bool * Z => (0 <=? snd qa)%Z && (snd qa <? 3)%Z) k.

Definition zq (k : Z) : cq := (inject_Z k, 0%Q).
Definition sym_s (fam : gfam) (ng : ngT) (st : sst) (b : nat * nat * nat) : option (list (list word)) :=
  let '(bx, by_, bz) := b in
  wx <- read_words fam ng st bx ;; wy <- read_words fam ng st by_ ;; wz <- read_words fam ng st bz ;;
  Some (flat_map (fun x => flat_map (fun y => map (fun z => x ++ y ++ z) wz) wy) wx).

Fixpoint sym_row (fam : gfam) (ng : ngT) (st : sst) (cs : list gconst) (ss : list (list (list word)))
    (ts : list (Z * option nat * N)) : option poly :=
  match ts with
  | [] => Some []
  | (k, oc, i) :: ts =>
      ws <- nth_error ss (N.to_nat i) ;;
      kc <- match oc with None => Some [] | Some j => nth_error cs j end ;;
      _ <- chk (k_ok kc) ;;
      r <- sym_row fam ng st cs ss ts ;;
      Some (map (fun w => (zq k, mkm (kcount kc) w)) ws ++ r)
  end.

Fixpoint mapo {A B} (f : A -> option B) (l : list A) : option (list B) :=
  match l with [] => Some [] | x :: l => y <- f x ;; r <- mapo f l ;; Some (y :: r) end.

Definition sym_fun (fam : gfam) (ng : ngT) (f : gfun) : option (list poly) :=
  st <- sym_ops fam ng (g_ops f) (sym0 ng (g_nblk f)) ;;
  ss <- mapo (sym_s fam ng st) (g_s f) ;;
  mapo (sym_row fam ng st (g_const f) ss) (g_rows f).

(** ** Comparison of combinations *)
Definition centre_eqb (c d : centre) : bool :=
  match c, d with CI, CI | CJ, CJ | CK, CK | CL, CL => true | _, _ => false end.
Definition org_eqb (a b : org) : bool :=
  match a, b with Own c, Own d => centre_eqb c d | Com, Com | Zero, Zero => true | _, _ => false end.
Definition prim_eqb (a b : prim) : bool :=
  match a, b with D, D => true | X o, X o' => org_eqb o o' | _, _ => false end.
Fixpoint list_eqb {A} (eqb : A -> A -> bool) (l m : list A) : bool :=
  match l, m with
  | [], [] => true
  | x :: l, y :: m => if eqb x y then list_eqb eqb l m else false
  | _, _ => false
  end.
Definition mono_eqb (m n : mono) : bool :=
  if list_eqb (list_eqb prim_eqb) (m_w m) (m_w n) then list_eqb Nat.eqb (m_k m) (m_k n) else false.

(** all coefficients of equal terms add up to zero *)
Fixpoint take (m : mono) (p : poly) : cq * poly :=
  match p with
  | [] => ((0, 0)%Q, [])
  | (q, n) :: p =>
      let (s, r) := take m p in
      if mono_eqb m n then (cqadd q s, r) else (s, (q, n) :: r)
  end.
Definition cq0b (q : cq) : bool := Qeq_bool (fst q) 0 && Qeq_bool (snd q) 0.
Fixpoint pzero (fuel : nat) (p : poly) : bool :=
  match p with
  | [] => true
  | (q, m) :: p =>
      match fuel with
      | 0 => false
      | S fuel => let (s, r) := take m p in if cq0b (cqadd q s) then pzero fuel r else false
      end
  end.
Definition peqb (p q : poly) : bool :=
  let r := p ++ pscale (cneg cq1) q in pzero (length r) r.

(** moving everything on centre i over to centre j *)
Definition nD (w : word) : nat := length (filter (fun p => match p with D => true | _ => false end) w).
Definition movew (w : list word) : list word :=
  match w with wi :: wj :: r => [] :: (rev wi ++ wj) :: r | _ => w end.
Definition move (t : cq * mono) : cq * mono :=
  match m_w (snd t) with
  | [xi; xj; xk; xl; yi; yj; yk; yl; zi; zj; zk; zl] =>
      ((if Nat.odd (nD xi + nD yi + nD zi) then cneg (fst t) else fst t),
       mkm (m_k (snd t)) [[]; rev xi ++ xj; xk; xl; []; rev yi ++ yj; yk; yl; []; rev zi ++ zj; zk; zl])
  | _ => t
  end.
Definition peqb' (parts : bool) (p q : poly) : bool :=
  if parts then peqb (map move p) (map move q) else peqb p q.

Definition all_spins : list spin := [SX; SY; SZ; S1].
Definition storedb (si : bool) (s : spin) : bool := si || match s with S1 => true | _ => false end.
Definition unstored_ok (parts : bool) (d : doc) (si1 si2 : bool) : bool :=
  forallb (fun qs => forallb (fun s1 => forallb (fun s2 =>
    if storedb si1 s1 && storedb si2 s2 then true else peqb' parts (spec_of d qs s1 s2) []) all_spins) all_spins) (spec_pairs d).

Fixpoint rows_ok (parts : bool) (e : gentry) (fac : cq) (ps : list poly) (cs : list (spin * spin * poly)) : bool :=
  match ps, cs with
  | [], [] => true
  | p :: ps, (s1, s2, q) :: cs =>
      peqb' parts (pscale (cqmul fac (phase e s1 s2)) p) q && rows_ok parts e fac ps cs
  | _, _ => false
  end.

Definition kind_ok (fam : gfam) (ng : ngT) (K : gkind) (nops : nat) : bool :=
  match fam, K with
  | F1e, K1 => (POS_E2 ng =? 1)%Z
  | F3c1e, K1 => true
  | F4c1e, K1 => Nat.eqb nops 0
  | Fgrids, KG => true
  | (F1rinv | F1nuc | F2e | F2yp | F3c2e | F2c2e), K2 => true
  | _, _ => false
  end.

Definition setup_ok (t : ent) (ng : ngT) : bool :=
  kind_ok (en_fam (t_e t)) ng (g_kind (t_f t)) (length (g_ops (t_f t))) &&
  forallb (fun c => (0 <=? incr ng c)%Z) cs4 && (0 <? g_nblk (t_f t)) && (Z.of_nat (g_nblk (t_f t)) <=? 2 ^ GSHIFT ng + 1)%Z.
Definition sym_ent (t : ent) : option (list poly) :=
  ng <- ent_ng t ;; 
  _ <- chk (setup_ok t ng) ;;
  sym_fun (en_fam (t_e t)) ng (t_f t).
Definition ent_ok (parts : bool) (sc : cq) (perm : list (spin * spin * poly) -> list (spin * spin * poly)) (t : ent) : bool :=
  match sym_ent t, factor (t_e t) with
  | Some ps, Some f =>
      let s1 := sis (en_c2s1 (t_e t)) in let s2 := sis (en_c2s2 (t_e t)) in
      rows_ok parts (t_e t) (cqmul sc (qfac f)) ps (perm (components (t_d t) s1 s2)) && unstored_ok parts (t_d t) s1 s2
  | _, _ => false
  end.
