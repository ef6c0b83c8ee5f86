(** WrapModel.v — the legacy C entry points and the Fortran entry points.

    The wrappers are macro families: [ALL_CINT], [ALL_CINT1E] (src/misc.h 34-83),
    [ALL_CINT_FORTRAN_], [ALL_CINT1E_FORTRAN_] (src/c2f.h 6-64), a local [ALL_CINT]
    (src/cint2e_f12.c 44-52), the legacy part of [BREIT0] (src/breit.c 43-48) and the
    hand-written functions of src/c2f.c.  Every macro is transcribed once as a function
    from the NAME argument to the list of C functions it expands to; a C function is its
    return type, its parameters, its local declarations and the one call it makes.
    The list of macro uses is in WrapTab.v.

    Modelled build: both options WITH_CINT2_INTERFACE and WITH_FORTRAN on (the default,
    CMakeLists.txt 140-154).  Memory is a partial map from addresses to values.  What the
    modern entry points do is left open: they are a parameter [lib] of the semantics. *)
From Coq Require Import String Ascii FMapPositive.
From Verif Require Import Base.
Local Open Scope string_scope.
Local Open Scope Z_scope.

(** ** C types, values, expressions *)
Inductive ty := Tvoid | Tdouble | Tcomplex | Tfint | Tcache | Topt | Tsize | Tptr (t : ty).

(** Doubles only travel through [cintgto_norm_]; a double is its bit pattern. *)
Inductive val := VInt (z : Z) | VDbl (bits : Z) | VNull | VAddr (a : Z).

(** [Avar]: a parameter or local; [Aderef]: unary [*]; [Acast]: a pointer or
    integer-to-pointer cast; [Anull]: [NULL]. *)
Inductive aexpr := Avar (x : string) | Aderef (e : aexpr) | Acast (t : ty) (e : aexpr) | Anull.

Record func := mkfunc {
  fname : string;
  fret : ty;
  fparams : list (ty * string);
  flocals : list (ty * string * aexpr);
  fcallee : string;
  fargs : list aexpr }.

Definition memory := Z -> option val.
Definition scope := list (string * val).

Fixpoint look (x : string) (s : scope) : option val :=
  match s with
  | [] => None
  | (y, v) :: s' => if String.eqb x y then Some v else look x s'
  end.

(** Casting an integer to a pointer type keeps the address; 0 gives the null pointer.
    Casting a pointer to another pointer type keeps the address. *)
Definition cast_ptr (v : val) : option val :=
  match v with
  | VInt z => Some (if z =? 0 then VNull else VAddr z)
  | VNull | VAddr _ => Some v
  | VDbl _ => None
  end.

Fixpoint aeval (m : memory) (s : scope) (e : aexpr) : option val :=
  match e with
  | Avar x => look x s
  | Anull => Some VNull
  | Aderef e' => v <- aeval m s e' ;; match v with VAddr a => m a | _ => None end
  | Acast _ e' => v <- aeval m s e' ;; cast_ptr v
  end.

Fixpoint aevals (m : memory) (s : scope) (l : list aexpr) : option (list val) :=
  match l with
  | [] => Some []
  | e :: l' => v <- aeval m s e ;; vs <- aevals m s l' ;; Some (v :: vs)
  end.

Fixpoint bind_params (ps : list (ty * string)) (vs : list val) : option scope :=
  match ps, vs with
  | [], [] => Some []
  | (_, x) :: ps', v :: vs' => s <- bind_params ps' vs' ;; Some ((x, v) :: s)
  | _, _ => None
  end.

Fixpoint bind_locals (m : memory) (ls : list (ty * string * aexpr)) (s : scope) : option scope :=
  match ls with
  | [] => Some s
  | (_, x, e) :: ls' => v <- aeval m s e ;; bind_locals m ls' ((x, v) :: s)
  end.

(** Conversion of a result to the wrapper's return type: [FINT] keeps [w] bits
    (include/cint.h.in 10-16: w = 32, or 64 with I8), in two's complement as every
    supported compiler does. *)
Definition to_fint (w z : Z) : Z := (z + 2 ^ (w - 1)) mod 2 ^ w - 2 ^ (w - 1).

Definition conv_ret (w : Z) (t : ty) (r : option val) : option val :=
  match t, r with
  | Tvoid, _ => None
  | Tfint, Some (VInt z) => Some (VInt (to_fint w z))
  | _, _ => r
  end.

(** A library function: arguments and memory to new memory and returned value;
    [None] is undefined behaviour inside it. *)
Definition library := string -> list val -> memory -> option (memory * option val).

Definition find_fun (prog : list func) (nm : string) : option func :=
  find (fun f => String.eqb nm (fname f)) prog.

(** Calling the function of a given name: a wrapper of [prog] runs its one call, anything
    else is the library.  [fuel] bounds the number of nested wrappers. *)
Fixpoint call (fuel : nat) (w : Z) (prog : list func) (lib : library)
    (nm : string) (vs : list val) (m : memory) : option (memory * option val) :=
  match find_fun prog nm with
  | None => lib nm vs m
  | Some f =>
      match fuel with
      | O => None
      | Datatypes.S fuel' =>
          s <- bind_params (fparams f) vs ;;
          s' <- bind_locals m (flocals f) s ;;
          args <- aevals m s' (fargs f) ;;
          r <- call fuel' w prog lib (fcallee f) args m ;;
          Some (fst r, conv_ret w (fret f) (snd r))
      end
  end.

(** ** Parameter lists *)
Definition P (t : ty) := Tptr t.

(** [double *out, FINT *shls, FINT *atm, FINT natm, FINT *bas, FINT nbas, double *env] *)
Definition ps_c : list (ty * string) :=
  [(P Tdouble, "out"); (P Tfint, "shls"); (P Tfint, "atm"); (Tfint, "natm");
   (P Tfint, "bas"); (Tfint, "nbas"); (P Tdouble, "env")].
(** ... [, CINTOpt *opt] *)
Definition ps_c_opt := (ps_c ++ [(P Topt, "opt")])%list.
(** [CINTOpt **opt, FINT *atm, FINT natm, FINT *bas, FINT nbas, double *env] *)
Definition ps_optimizer : list (ty * string) :=
  [(P (P Topt), "opt"); (P Tfint, "atm"); (Tfint, "natm"); (P Tfint, "bas");
   (Tfint, "nbas"); (P Tdouble, "env")].
(** the Fortran versions: [FINT *natm], [FINT *nbas], [size_t optptr_as_integer8] *)
Definition ps_f : list (ty * string) :=
  [(P Tdouble, "out"); (P Tfint, "shls"); (P Tfint, "atm"); (P Tfint, "natm");
   (P Tfint, "bas"); (P Tfint, "nbas"); (P Tdouble, "env")].
Definition ps_f_opt := (ps_f ++ [(Tsize, "optptr_as_integer8")])%list.
Definition ps_f_optimizer (o : ty * string) : list (ty * string) :=
  [o; (P Tfint, "atm"); (P Tfint, "natm"); (P Tfint, "bas"); (P Tfint, "nbas"); (P Tdouble, "env")].
Definition cast_opt : list (ty * string * aexpr) :=
  [(P (P Topt), "opt", Acast (P (P Topt)) (Avar "optptr_as_integer8"))].

(** ** The macros *)

(** src/misc.h 35-61 *)
Definition ALL_CINT (NAME : string) : list func :=
  [ mkfunc ("c" ++ NAME ++ "_cart") Tfint ps_c_opt [] (NAME ++ "_cart")
      [Avar "out"; Anull; Avar "shls"; Avar "atm"; Avar "natm"; Avar "bas"; Avar "nbas"; Avar "env"; Avar "opt"; Anull];
    mkfunc ("c" ++ NAME ++ "_cart_optimizer") Tvoid ps_optimizer [] (NAME ++ "_optimizer")
      [Avar "opt"; Avar "atm"; Avar "natm"; Avar "bas"; Avar "nbas"; Avar "env"];
    mkfunc ("c" ++ NAME ++ "_sph") Tfint ps_c_opt [] (NAME ++ "_sph")
      [Avar "out"; Anull; Avar "shls"; Avar "atm"; Avar "natm"; Avar "bas"; Avar "nbas"; Avar "env"; Avar "opt"; Anull];
    mkfunc ("c" ++ NAME ++ "_sph_optimizer") Tvoid ps_optimizer [] (NAME ++ "_optimizer")
      [Avar "opt"; Avar "atm"; Avar "natm"; Avar "bas"; Avar "nbas"; Avar "env"];
    mkfunc ("c" ++ NAME) Tfint ps_c_opt [] (NAME ++ "_spinor")
      [Acast (P Tcomplex) (Avar "out"); Anull; Avar "shls"; Avar "atm"; Avar "natm"; Avar "bas"; Avar "nbas"; Avar "env"; Avar "opt"; Anull];
    mkfunc ("c" ++ NAME ++ "_optimizer") Tvoid ps_optimizer [] (NAME ++ "_optimizer")
      [Avar "opt"; Avar "atm"; Avar "natm"; Avar "bas"; Avar "nbas"; Avar "env"] ].

(** src/misc.h 64-77 *)
Definition ALL_CINT1E (NAME : string) : list func :=
  [ mkfunc ("c" ++ NAME ++ "_cart") Tfint ps_c [] (NAME ++ "_cart")
      [Avar "out"; Anull; Avar "shls"; Avar "atm"; Avar "natm"; Avar "bas"; Avar "nbas"; Avar "env"; Anull; Anull];
    mkfunc ("c" ++ NAME ++ "_sph") Tfint ps_c [] (NAME ++ "_sph")
      [Avar "out"; Anull; Avar "shls"; Avar "atm"; Avar "natm"; Avar "bas"; Avar "nbas"; Avar "env"; Anull; Anull];
    mkfunc ("c" ++ NAME) Tfint ps_c [] (NAME ++ "_spinor")
      [Acast (P Tcomplex) (Avar "out"); Anull; Avar "shls"; Avar "atm"; Avar "natm"; Avar "bas"; Avar "nbas"; Avar "env"; Anull; Anull] ].

(** src/c2f.h 9-42 *)
Definition ALL_CINT_FORTRAN_ (NAME : string) : list func :=
  [ mkfunc ("c" ++ NAME ++ "_sph_") Tfint ps_f_opt cast_opt (NAME ++ "_sph")
      [Avar "out"; Anull; Avar "shls"; Avar "atm"; Aderef (Avar "natm"); Avar "bas"; Aderef (Avar "nbas"); Avar "env"; Aderef (Avar "opt"); Anull];
    mkfunc ("c" ++ NAME ++ "_sph_optimizer_") Tvoid (ps_f_optimizer (Tsize, "optptr_as_integer8")) cast_opt (NAME ++ "_optimizer")
      [Avar "opt"; Avar "atm"; Aderef (Avar "natm"); Avar "bas"; Aderef (Avar "nbas"); Avar "env"];
    mkfunc ("c" ++ NAME ++ "_cart_") Tfint ps_f_opt cast_opt (NAME ++ "_cart")
      [Avar "out"; Anull; Avar "shls"; Avar "atm"; Aderef (Avar "natm"); Avar "bas"; Aderef (Avar "nbas"); Avar "env"; Aderef (Avar "opt"); Anull];
    mkfunc ("c" ++ NAME ++ "_cart_optimizer_") Tvoid (ps_f_optimizer (P (P Topt), "opt")) [] (NAME ++ "_optimizer")
      [Avar "opt"; Avar "atm"; Aderef (Avar "natm"); Avar "bas"; Aderef (Avar "nbas"); Avar "env"];
    mkfunc ("c" ++ NAME ++ "_") Tfint ps_f_opt cast_opt (NAME ++ "_spinor")
      [Acast (P Tcomplex) (Avar "out"); Anull; Avar "shls"; Avar "atm"; Aderef (Avar "natm"); Avar "bas"; Aderef (Avar "nbas"); Avar "env"; Aderef (Avar "opt"); Anull];
    mkfunc ("c" ++ NAME ++ "_optimizer_") Tvoid (ps_f_optimizer (Tsize, "optptr_as_integer8")) cast_opt (NAME ++ "_optimizer")
      [Avar "opt"; Avar "atm"; Aderef (Avar "natm"); Avar "bas"; Aderef (Avar "nbas"); Avar "env"] ].

(** src/c2f.h 44-58 *)
Definition ALL_CINT1E_FORTRAN_ (NAME : string) : list func :=
  [ mkfunc ("c" ++ NAME ++ "_sph_") Tfint ps_f [] (NAME ++ "_sph")
      [Avar "out"; Anull; Avar "shls"; Avar "atm"; Aderef (Avar "natm"); Avar "bas"; Aderef (Avar "nbas"); Avar "env"; Anull; Anull];
    mkfunc ("c" ++ NAME ++ "_cart_") Tfint ps_f [] (NAME ++ "_cart")
      [Avar "out"; Anull; Avar "shls"; Avar "atm"; Aderef (Avar "natm"); Avar "bas"; Aderef (Avar "nbas"); Avar "env"; Anull; Anull];
    mkfunc ("c" ++ NAME ++ "_") Tfint ps_f [] (NAME ++ "_spinor")
      [Acast (P Tcomplex) (Avar "out"); Anull; Avar "shls"; Avar "atm"; Aderef (Avar "natm"); Avar "bas"; Aderef (Avar "nbas"); Avar "env"; Anull; Anull] ].

(** src/cint2e_f12.c 44-52: the file's own [ALL_CINT], real spherical only *)
Definition ALL_CINT_F12 (NAME : string) : list func :=
  [ mkfunc ("c" ++ NAME ++ "_sph") Tfint ps_c_opt [] (NAME ++ "_sph")
      [Avar "out"; Anull; Avar "shls"; Avar "atm"; Avar "natm"; Avar "bas"; Avar "nbas"; Avar "env"; Avar "opt"; Anull];
    mkfunc ("c" ++ NAME ++ "_sph_optimizer") Tvoid ps_optimizer [] (NAME ++ "_optimizer")
      [Avar "opt"; Avar "atm"; Avar "natm"; Avar "bas"; Avar "nbas"; Avar "env"] ].

(** src/breit.c 43-48: the legacy function of [BREIT0(X, ncomp_tensor)].  The modern
    function of the same macro is [int2e_breit_X_spinor] (breit.c 35-42). *)
Definition BREIT0 (X : string) : list func :=
  [ mkfunc ("cint2e_breit_" ++ X ++ "_spinor") Tfint
      [(P Tcomplex, "out"); (P Tfint, "shls"); (P Tfint, "atm"); (Tfint, "natm");
       (P Tfint, "bas"); (Tfint, "nbas"); (P Tdouble, "env"); (P Topt, "opt")] []
      ("int2e_breit_" ++ X ++ "_spinor")
      [Avar "out"; Anull; Avar "shls"; Avar "atm"; Avar "natm"; Avar "bas"; Avar "nbas"; Avar "env"; Avar "opt"; Anull] ].

Inductive macro := MC | MC1E | MF | MF1E | MF12 | MBREIT.

Definition expand (k : macro) (NAME : string) : list func :=
  match k with
  | MC => ALL_CINT NAME
  | MC1E => ALL_CINT1E NAME
  | MF => ALL_CINT_FORTRAN_ NAME
  | MF1E => ALL_CINT1E_FORTRAN_ NAME
  | MF12 => ALL_CINT_F12 NAME
  | MBREIT => BREIT0 NAME
  end.

(** ** src/c2f.c, the functions in the order of the file *)
Definition bas_fun (nm callee : string) : func :=
  mkfunc nm Tfint [(P Tfint, "bas_id"); (P Tfint, "bas")] [] callee [Aderef (Avar "bas_id"); Avar "bas"].
Definition tot_fun (nm callee : string) : func :=
  mkfunc nm Tfint [(P Tfint, "bas"); (P Tfint, "nbas")] [] callee [Avar "bas"; Aderef (Avar "nbas")].
Definition loc_fun (nm callee : string) : func :=
  mkfunc nm Tvoid [(P Tfint, "ao_loc"); (P Tfint, "bas"); (P Tfint, "nbas")] [] callee
    [Avar "ao_loc"; Avar "bas"; Aderef (Avar "nbas")].

Definition c2f_functions : list func :=
  [ bas_fun "cintlen_spinor_" "CINTlen_spinor";              (* 22-25 *)
    bas_fun "cintcgtos_cart_" "CINTcgto_cart";               (* 27-30 *)
    bas_fun "cintcgto_cart_" "CINTcgto_cart";                (* 31-34 *)
    bas_fun "cintcgtos_spheric_" "CINTcgto_spheric";         (* 36-39 *)
    bas_fun "cintcgto_spheric_" "CINTcgto_spheric";          (* 40-43 *)
    bas_fun "cintcgtos_spinor_" "CINTcgto_spinor";           (* 45-48 *)
    bas_fun "cintcgto_spinor_" "CINTcgto_spinor";            (* 49-52 *)
    tot_fun "cinttot_pgto_spheric_" "CINTtot_pgto_spheric";  (* 57-60 *)
    tot_fun "cinttot_pgto_spinor_" "CINTtot_pgto_spinor";    (* 65-68 *)
    tot_fun "cinttot_cgto_cart_" "CINTtot_cgto_cart";        (* 73-76 *)
    tot_fun "cinttot_cgto_spheric_" "CINTtot_cgto_spheric";  (* 81-84 *)
    tot_fun "cinttot_cgto_spinor_" "CINTtot_cgto_spinor";    (* 89-92 *)
    loc_fun "cintshells_cart_offset_" "CINTshells_cart_offset";        (* 97-100 *)
    loc_fun "cintshells_spheric_offset_" "CINTshells_spheric_offset";  (* 105-108 *)
    loc_fun "cintshells_spinor_offset_" "CINTshells_spinor_offset";    (* 113-116 *)
    mkfunc "cintgto_norm_" Tdouble [(P Tfint, "n"); (P Tdouble, "a")] []
      "CINTgto_norm" [Aderef (Avar "n"); Aderef (Avar "a")];           (* 119-122 *)
    mkfunc "cintinit_2e_optimizer_" Tvoid (ps_f_optimizer (P (P Topt), "opt")) []
      "CINTinit_2e_optimizer"
      [Avar "opt"; Avar "atm"; Aderef (Avar "natm"); Avar "bas"; Aderef (Avar "nbas"); Avar "env"];  (* 130-135 *)
    mkfunc "cintinit_optimizer_" Tvoid (ps_f_optimizer (P (P Topt), "opt")) []
      "cintinit_2e_optimizer_"
      [Avar "opt"; Avar "atm"; Avar "natm"; Avar "bas"; Avar "nbas"; Avar "env"];                    (* 136-141 *)
    mkfunc "cintdel_2e_optimizer_" Tvoid [(P (P Topt), "opt")] []
      "CINTdel_2e_optimizer" [Avar "opt"];                             (* 142-145 *)
    mkfunc "cintdel_optimizer_" Tvoid [(P (P Topt), "opt")] []
      "cintdel_2e_optimizer_" [Avar "opt"] ].                          (* 146-149 *)

(** ** Prototypes of the functions that get called *)

(** The three shapes of modern entry point: [_cart]/[_sph], [_spinor], [_optimizer]. *)
Inductive shape := Sreal | Scplx | Sopt.

Definition ps_modern (out : ty) : list (ty * string) :=
  [(P out, "out"); (P Tfint, "dims"); (P Tfint, "shls"); (P Tfint, "atm"); (Tfint, "natm");
   (P Tfint, "bas"); (Tfint, "nbas"); (P Tdouble, "env"); (P Topt, "opt"); (P Tdouble, "cache")].

Definition proto_of (s : shape) : ty * list (ty * string) :=
  match s with
  | Sreal => (Tcache, ps_modern Tdouble)
  | Scplx => (Tcache, ps_modern Tcomplex)
  | Sopt => (Tvoid, ps_optimizer)
  end.

(** Prototypes of the functions called from src/c2f.c: src/cint_bas.h 11-29, src/misc.h 24,
    src/optimizer.h 10-14; the two nested wrappers are in c2f.c itself.  [const] and array
    parameter syntax are dropped. *)
Definition c2f_callees : list (string * (ty * list (ty * string))) :=
  let bas := (Tfint, [(Tfint, "bas_id"); (P Tfint, "bas")]) in
  let tot := (Tfint, [(P Tfint, "bas"); (Tfint, "nbas")]) in
  let loc := (Tvoid, [(P Tfint, "ao_loc"); (P Tfint, "bas"); (Tfint, "nbas")]) in
  [ ("CINTlen_spinor", bas); ("CINTcgto_cart", bas); ("CINTcgto_spheric", bas); ("CINTcgto_spinor", bas);
    ("CINTtot_pgto_spheric", tot); ("CINTtot_pgto_spinor", tot);
    ("CINTtot_cgto_cart", tot); ("CINTtot_cgto_spheric", tot); ("CINTtot_cgto_spinor", tot);
    ("CINTshells_cart_offset", loc); ("CINTshells_spheric_offset", loc); ("CINTshells_spinor_offset", loc);
    ("CINTgto_norm", (Tdouble, [(Tfint, "n"); (Tdouble, "a")]));
    ("CINTinit_2e_optimizer", (Tvoid, ps_optimizer));
    ("cintinit_2e_optimizer_", (Tvoid, ps_f_optimizer (P (P Topt), "opt")));
    ("CINTdel_2e_optimizer", (Tvoid, [(P (P Topt), "opt")]));
    ("cintdel_2e_optimizer_", (Tvoid, [(P (P Topt), "opt")])) ].

(** Static type of an argument expression inside a function. *)
Fixpoint look_ty (x : string) (l : list (ty * string)) : option ty :=
  match l with
  | [] => None
  | (t, y) :: l' => if String.eqb x y then Some t else look_ty x l'
  end.
Fixpoint type_of (f : func) (e : aexpr) : option ty :=
  match e with
  | Avar x => look_ty x (map fst (flocals f) ++ fparams f)
  | Aderef e' => match type_of f e' with Some (Tptr t) => Some t | _ => None end
  | Acast t _ => Some t
  | Anull => None
  end.
