(** UnrModel.v — the language of the hand-unrolled kernels of g2e.c (lines 695-4352).

    Each kernel is a straight line of assignments g[p] = expression with literal
    subscripts.  The expressions use cells of g, the recurrence coefficients
    (pointers c0x = bc->c00x, cpx = bc->c0px, b00, b10, b01 and so on, declared at
    the head of each kernel), the vectors envs->rirj (xixj, yiyj, zizj) and
    envs->rkrl (xkxl, ykyl, zkzl), and the constants 1 and 2.  A kernel is
    represented by the list of its assignments (UnrTab.v, written by a script from
    the source text, one entry per assignment, in order); [run] executes it.
    Lines such as "//g[2] = w[0];" are comments in the source and have no entry. *)
From Verif Require Import Base EnvModel RecModel.

Inductive ucoef :=
| C0 (ax n : Z)   (* bc->c00{x,y,z}[n] *)
| CP (ax n : Z)   (* bc->c0p{x,y,z}[n] *)
| B10 (n : Z) | B01 (n : Z) | B00 (n : Z)
| RIJ (ax : Z)    (* envs->rirj[ax] *)
| RKL (ax : Z).   (* envs->rkrl[ax] *)

Inductive uexpr :=
| UV (v : ucoef)
| UG (p : Z)      (* g[p] *)
| UK (z : Z)      (* literal *)
| UAdd (a b : uexpr)
| UMul (a b : uexpr).

Declare Scope unr_scope.
Delimit Scope unr_scope with unr.
Bind Scope unr_scope with uexpr.
Notation "a + b" := (UAdd a b) : unr_scope.
Notation "a * b" := (UMul a b) : unr_scope.

(** the names the source uses *)
Definition g_ p := UG p.
Definition c0x n := UV (C0 0 n).  Definition c0y n := UV (C0 1 n).  Definition c0z n := UV (C0 2 n).
Definition cpx n := UV (CP 0 n).  Definition cpy n := UV (CP 1 n).  Definition cpz n := UV (CP 2 n).
Definition b10_ n := UV (B10 n).  Definition b01_ n := UV (B01 n).  Definition b00_ n := UV (B00 n).
Definition xixj := UV (RIJ 0).  Definition yiyj := UV (RIJ 1).  Definition zizj := UV (RIJ 2).
Definition xkxl := UV (RKL 0).  Definition ykyl := UV (RKL 1).  Definition zkzl := UV (RKL 2).

(** g[p] = e *)
Inductive ustmt := Set_ (p : Z) (e : uexpr).
Notation "'g[' p ]= e" := (Set_ p e%unr) (at level 90, p at level 0, e at level 89).

Section Run.
  Context {F : Type}.
  Variables (add mul : F -> F -> F) (inj : Z -> F).
  Variables (bc : @rys2e F) (rirj rkrl : Z -> F).

  Definition coef (v : ucoef) : F :=
    match v with
    | C0 ax n => c00 bc ax n
    | CP ax n => c0p bc ax n
    | B10 n => b10 bc n
    | B01 n => b01 bc n
    | B00 n => b00 bc n
    | RIJ ax => rirj ax
    | RKL ax => rkrl ax
    end.

  Fixpoint eval (g : arr F) (e : uexpr) : option F :=
    match e with
    | UV v => Some (coef v)
    | UG p => rd g p
    | UK z => Some (inj z)
    | UAdd a b => x <- eval g a ;; y <- eval g b ;; Some (add x y)
    | UMul a b => x <- eval g a ;; y <- eval g b ;; Some (mul x y)
    end.

  Definition step (g : arr F) (s : ustmt) : option (arr F) :=
    match s with Set_ p e => v <- eval g e ;; wr g p v end.

  Fixpoint run (k : list ustmt) (g : arr F) : option (arr F) :=
    match k with
    | [] => Some g
    | s :: k => g <- step g s ;; run k g
    end.
End Run.
