(** BreitModel.v — the driver that assembles the Breit integrals from the Gaunt and the two gauge
    integrals (/repo/src/breit.c). *)
From Verif Require Import Base BasModel.

Section Breit.
  Context {F : Type} (add mul sub : F -> F -> F) (opp : F -> F) (half : F).

  (** One of the three ingredient integrals called with dims == NULL: it stores [nop] values from
      the start of the buffer it is given and returns its flag.  The call itself is abstract: its
      values and its flag are whatever they are. *)
  Record ingredient := mking { i_val : Z -> F; i_flag : Z }.

  Definition call (q : ingredient) (nop : Z) (out : arr F) (o : Z) : option (arr F * Z) :=
    out <- for_ 0 nop (fun i out => wr out (o + i) (i_val q i)) out ;; Some (out, i_flag q).

  (** breit.c 50-80, [_copy_to_out], the part behind the pointer comparison; [pin], [pout] are
      the two moving pointers *)
  Definition copy_to_out (out : arr F) (inp : arr F) (o : Z) (d0 d1 d2 c0 c1 c2 c3 : Z)
      : option (arr F) :=
    let ni := d0 in let nj := d1 in let nk := d2 in
    let nij := ni * nj in let nijk := nij * nk in
    let di := c0 in let dj := c1 in let dk := c2 in let dl := c3 in
    let dij := di * dj in let dijk := dij * dk in
    r <- for_ 0 dl (fun l r => let '(out, (pi, po)) := r in
           out <- for_ 0 dk (fun k out =>
                    let pin := pi + k * dij in
                    let pout := po + k * nij in
                    for_ 0 dj (fun j out =>
                      for_ 0 di (fun i out =>
                        v <- rd inp (pin + (j * di + i)) ;;
                        wr out (pout + (j * ni + i)) v) out) out) out ;;
           Some (out, (pi + dijk, po + nijk))) (out, (o, 0)) ;;
    Some (fst r).

  (** breit.c 108-114 and 118-122: the two passes over the accumulated block.  [b1] is where the
      block [buf1] starts. *)
  Definition pass1 (nop : Z) (buf1 : arr F) (b1 : Z) (buf : arr F) : option (arr F) :=
    for_ 0 nop (fun i buf1 =>
      x <- rd buf1 (b1 + i) ;; y <- rd buf i ;; wr buf1 (b1 + i) (sub (opp x) y)) buf1.
  Definition pass2 (nop : Z) (buf1 : arr F) (b1 : Z) (buf : arr F) : option (arr F) :=
    for_ 0 nop (fun i buf1 =>
      x <- rd buf1 (b1 + i) ;; y <- rd buf i ;; wr buf1 (b1 + i) (mul (add x y) half)) buf1.

  (** the same passes with [buf1] inside [buf] *)
  Definition pass1s (nop : Z) (buf : arr F) : option (arr F) :=
    for_ 0 nop (fun i buf =>
      x <- rd buf (nop + i) ;; y <- rd buf i ;; wr buf (nop + i) (sub (opp x) y)) buf.
  Definition pass2s (nop : Z) (buf : arr F) : option (arr F) :=
    for_ 0 nop (fun i buf =>
      x <- rd buf (nop + i) ;; y <- rd buf i ;; wr buf (nop + i) (mul (add x y) half)) buf.

  (** [a || b] as an int *)
  Definition lor (a b : Z) : Z := if negb (a =? 0) then 1 else if negb (b =? 0) then 1 else 0.

  (** breit.c 82-129, [_int2e_breit_drv] with out != NULL.  [cnt] are the four results of
      CINTcgto_spinor (lines 95-99).  The scratch buffer of 2*nop values is a fresh array with
      nothing in it; malloc is assumed to succeed.  With dims == NULL, [buf1] is the caller's
      array, otherwise the second half of [buf].  The ingredients share [opt == NULL] and the
      caller's cache, which is not modelled. *)
  Definition breit_drv (ncomp : Z) (cnt : Z * Z * Z * Z) (out : arr F) (dims : option (arr Z))
      (gaunt r1 r2 : ingredient) : option (arr F * Z) :=
    let '(c0, c1, c2, c3) := cnt in
    let nop := c0 * c1 * c2 * c3 * ncomp in
    let buf := @uninit F (nop * 2) in
    match dims with
    | None =>
      t <- call gaunt nop out 0 ;; let '(out, hv) := t in
      t <- call r1 nop buf 0 ;; let '(buf, f) := t in
      let hv := lor f hv in
      out <- (if negb (hv =? 0) then pass1 nop out 0 buf else Some out) ;;
      t <- call r2 nop buf 0 ;; let '(buf, f) := t in
      let hv := lor f hv in
      out <- (if negb (hv =? 0) then pass2 nop out 0 buf else Some out) ;;
      (* out == in: _copy_to_out returns at once *)
      Some (out, hv)
    | Some d =>
      t <- call gaunt nop buf nop ;; let '(buf, hv) := t in
      t <- call r1 nop buf 0 ;; let '(buf, f) := t in
      let hv := lor f hv in
      buf <- (if negb (hv =? 0) then pass1s nop buf else Some buf) ;;
      t <- call r2 nop buf 0 ;; let '(buf, f) := t in
      let hv := lor f hv in
      buf <- (if negb (hv =? 0) then pass2s nop buf else Some buf) ;;
      d0 <- rd d 0 ;; d1 <- rd d 1 ;; d2 <- rd d 2 ;;
      out <- copy_to_out out buf nop d0 d1 d2 c0 c1 c2 c3 ;;
      Some (out, hv)
    end.

  (** breit.c 87-93: the scratch size reported for out == NULL; [s1], [s2] are the answers of
      the two gauge integrals *)
  Definition breit_size (s1 s2 : Z) : Z := Z.max s1 s2.

  (** BREIT0, breit.c 30-48: all four instances pass ncomp_tensor = 1; the counts come from
      the shells. *)
  Definition int2e_breit (bas : arr Z) (shls : Z * Z * Z * Z) (out : arr F) (dims : option (arr Z))
      (gaunt r1 r2 : ingredient) : option (arr F * Z) :=
    let '(s0, s1, s2, s3) := shls in
    c0 <- CINTcgto_spinor s0 bas ;; c1 <- CINTcgto_spinor s1 bas ;;
    c2 <- CINTcgto_spinor s2 bas ;; c3 <- CINTcgto_spinor s3 bas ;;
    breit_drv 1 (c0, c1, c2, c3) out dims gaunt r1 r2.
End Breit.
