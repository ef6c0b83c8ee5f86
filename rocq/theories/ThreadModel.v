(** ThreadModel.v — several threads calling integral drivers on one output array.

    A thread evaluates a list of calls, one after the other.  Each call writes through its own pointer
    [out + off] into the shared array and has its own scratch space ([cache], a separate array here);
    env, atm, bas and the optimizer are only read by every call, so they appear as parameters.
    What other threads see of a call is its sequence of stores into the shared array.  The machine below
    lets any thread perform its next store at any time.  One store of a double is atomic. *)
From Verif Require Import Base OutModel OutSpec.

Section Thread.
  Context {F : Type}.

  (** one store: where and what *)
  Definition store : Type := Z * F.
  Definition store1 (a : arr F) (s : store) : arr F :=
    mkarr (asize a) (fun j => if j =? fst s then Some (snd s) else acell a j).
  Definition stores (tr : list store) (a : arr F) : arr F := fold_left store1 tr a.
  Definition inside (sz : Z) (tr : list store) : Prop := Forall (fun s => 0 <= fst s < sz) tr.

  (** The stores a function performs on its array argument of [sz] cells: the same ones in the same
      order whatever the array holds, and no other effect on it.  (That such a list exists says in
      particular that the function never reads the array.) *)
  Definition performs (sz : Z) (c : arr F -> option (arr F)) (tr : list store) : Prop :=
    inside sz tr /\ forall a, asize a = sz -> c a = Some (stores tr a).

  (** a call through the pointer [out + off] *)
  Record call := mkcall { c_off : Z; c_fun : arr F -> option (arr F) }.
  Definition shift (o : Z) (tr : list store) : list store := map (fun s => (o + fst s, snd s)) tr.
  (** the stores of one call, and of a thread, in coordinates of the shared array of [sz] cells *)
  Definition call_stores (sz : Z) (c : call) (tr : list store) : Prop :=
    0 <= c_off c /\ exists t, performs (sz - c_off c) (c_fun c) t /\ tr = shift (c_off c) t.
  Inductive thread_stores (sz : Z) : list call -> list store -> Prop :=
  | ts_nil : thread_stores sz [] []
  | ts_cons c cs t ts : call_stores sz c t -> thread_stores sz cs ts ->
      thread_stores sz (c :: cs) (t ++ ts).

  (** The machine: the shared array and what every thread has still to store.  A store outside the
      array has no step. *)
  Inductive step : arr F * list (list store) -> arr F * list (list store) -> Prop :=
  | step_store a a' pre s t post : wr a (fst s) (snd s) = Some a' ->
      step (a, pre ++ (s :: t) :: post) (a', pre ++ t :: post).
  Inductive steps : arr F * list (list store) -> arr F * list (list store) -> Prop :=
  | steps_refl x : steps x x
  | steps_step x y z : step x y -> steps y z -> steps x z.
  Definition finished (ts : list (list store)) : Prop := Forall (fun t => t = []) ts.

  (** The calls one after the other, thread by thread, on one thread only *)
  Fixpoint run_calls (cs : list call) (a : arr F) : option (arr F) :=
    match cs with
    | [] => Some a
    | c :: cs => a' <- onsub a (c_off c) (c_fun c) ;; run_calls cs a'
    end.

  (** ** Calls and the block each one fills
      Element (i1,i2,i3,i4) of component n belongs at [at_] in the shared array (OutSpec.v). *)
  Record bcall := mkb { b_call : call; b_nc : Z; b_n1 : Z; b_n2 : Z; b_n3 : Z; b_n4 : Z;
    b_m1 : Z; b_m2 : Z; b_m3 : Z; b_m4 : Z; b_val : Z -> Z -> Z -> Z -> Z -> F }.
  Definition elem (b : bcall) (n i1 i2 i3 i4 : Z) : Prop :=
    0 <= n < b_nc b /\ 0 <= i1 < b_m1 b /\ 0 <= i2 < b_m2 b /\ 0 <= i3 < b_m3 b /\ 0 <= i4 < b_m4 b.
  Definition at_ (b : bcall) (n i1 i2 i3 i4 : Z) : Z :=
    c_off (b_call b) + place (b_n1 b) (b_n2 b) (b_n3 b) (b_n4 b) n i1 i2 i3 i4.
  Definition covers (b : bcall) (x : Z) : Prop :=
    exists n i1 i2 i3 i4, elem b n i1 i2 i3 i4 /\ x = at_ b n i1 i2 i3 i4.
  (** what the single-threaded theorems (C19-C25) say about the call *)
  Definition fills (sz : Z) (b : bcall) : Prop :=
    forall out, asize out = sz - c_off (b_call b) -> exists out', c_fun (b_call b) out = Some out' /\
      stored_block out out' (b_nc b) (b_n1 b) (b_n2 b) (b_n3 b) (b_n4 b) (b_m1 b) (b_m2 b) (b_m3 b) (b_m4 b) (b_val b).
  Definition blocks_apart (b b' : bcall) : Prop := forall x, ~ (covers b x /\ covers b' x).
End Thread.

(** The calls considered: the last part of each driver, on a finished batch [gctr] (or none, [hv] false). *)
Inductive driver {F} (zero : F) (add mul : F -> F -> F) (coef : Z -> F) : (arr F -> option (arr F)) -> Prop :=
| drv_1e k hv dims gctr e : driver zero add mul coef (fun out => CINT1e_drv_tail zero add mul coef k hv dims out gctr e)
| drv_2c2e k hv dims gctr e : driver zero add mul coef (fun out => CINT2c2e_drv_tail zero add mul coef k hv dims out gctr e)
| drv_3c k ssc hv dims gctr e : driver zero add mul coef (fun out => CINT3c2e_drv_tail zero add mul coef k ssc hv dims out gctr e)
| drv_2e k hv dims gctr e : driver zero add mul coef (fun out => CINT2e_drv_tail zero add mul coef k hv dims out gctr e)
| drv_grids k hv dims ngrids gctr e : driver zero add mul coef (fun out => CINT1e_grids_drv_tail zero add mul coef k hv dims ngrids out gctr e).
