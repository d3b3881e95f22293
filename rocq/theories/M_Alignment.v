(** Model of class Alignment (lib/alignment/src/alignment.cpp, alignment.h) over any arithmetic. *)
From Verif Require Import Base Num M_Linalg M_Helper.

(** lib/types/src/mytypes.h:31-39, structs Triangle and Edge (int indices). *)
Record tri := Tri { t1 : Z; t2 : Z; t3 : Z }.
Record edge := Edge { e1 : Z; e2 : Z }.

(** lib/types/src/mytypes.h:57-64 *)
Inductive ttype := NONE | POINT | LINE | TRIANGLE_OUT | TRIANGLE_IN.

(** A C array processed from left to right where deleting element j moves the last element to
    position j and looks at position j again ("v[j] = v[ntri-1]; ntri--; j--").
    [f s x] returns the new loop state and [Some x'] to keep the (updated) element, [None] to delete.
    [fuel] is the number of elements not yet looked at. *)
Section Sweep.
Context {A S : Type} (f : S -> A -> res (S * option A)).
Fixpoint sweep (fuel : nat) (s : S) (done todo : list A) : res (S * list A) :=
  match fuel, todo with
  | Datatypes.S fuel', x :: rest =>
      do '(s', o) <- f s x;
      match o with
      | Some x' => sweep fuel' s' (done ++ [x']) rest
      | None => sweep fuel' s' done (match rest with [] => [] | y :: _ => last rest y :: removelast rest end)
      end
  | _, _ => Ok (s, done ++ todo)
  end.
Definition sweep_all (s : S) (l : list A) : res (S * list A) := sweep (length l) s [] l.
End Sweep.

(** array read with an int index *)
Definition rdz {A} (l : list A) (i : Z) : res A :=
  if i <? 0 then UB OobRead else rd l (Z.to_nat i).

Section Alignment.
Context (N : Num).
Notation F := (F N).

(** lib/types/src/mytypes.h:41-55 *)
Record point := Pt { px : F; py : F }.
Record vpair := VP { actual : point; reference : point }.

(** mytypes.h:30 EPSILON = 0.000001 *)
Definition EPSILON : F := fq N 1 1000000.
Definition two : F := fZ N 2.

(** ** CircumCircle, alignment.cpp:106-150.
    Result: (inside, new (xc, r)) where [None] means xc, yc, r were not assigned
    (early return at line 114).  yc is not returned: no caller reads it. *)
Definition CircumCircle (xp yp x1 y1 x2 y2 x3 y3 : F) : bool * option (F * F) :=
  if flt N (fabs N (fsub N y1 y2)) EPSILON && flt N (fabs N (fsub N y2 y3)) EPSILON
  then (false, None)
  else
    let '(xc, yc) :=
      if flt N (fabs N (fsub N y2 y1)) EPSILON then
        let m2 := fdiv N (fneg N (fsub N x3 x2)) (fsub N y3 y2) in
        let mx2 := fdiv N (fadd N x2 x3) two in
        let my2 := fdiv N (fadd N y2 y3) two in
        let xc := fdiv N (fadd N x2 x1) two in
        (xc, fadd N (fmul N m2 (fsub N xc mx2)) my2)
      else if flt N (fabs N (fsub N y3 y2)) EPSILON then
        let m1 := fdiv N (fneg N (fsub N x2 x1)) (fsub N y2 y1) in
        let mx1 := fdiv N (fadd N x1 x2) two in
        let my1 := fdiv N (fadd N y1 y2) two in
        let xc := fdiv N (fadd N x3 x2) two in
        (xc, fadd N (fmul N m1 (fsub N xc mx1)) my1)
      else
        let m1 := fdiv N (fneg N (fsub N x2 x1)) (fsub N y2 y1) in
        let m2 := fdiv N (fneg N (fsub N x3 x2)) (fsub N y3 y2) in
        let mx1 := fdiv N (fadd N x1 x2) two in
        let mx2 := fdiv N (fadd N x2 x3) two in
        let my1 := fdiv N (fadd N y1 y2) two in
        let my2 := fdiv N (fadd N y2 y3) two in
        let xc := fdiv N (fsub N (fadd N (fsub N (fmul N m1 mx1) (fmul N m2 mx2)) my2) my1) (fsub N m1 m2) in
        (xc, fadd N (fmul N m1 (fsub N xc mx1)) my1) in
    let dx := fsub N x2 xc in
    let dy := fsub N y2 yc in
    let rsqr := fadd N (fmul N dx dx) (fmul N dy dy) in
    let r := fsqrt N rsqr in
    let dx := fsub N xp xc in
    let dy := fsub N yp yc in
    let drsqr := fadd N (fmul N dx dx) (fmul N dy dy) in
    (fle N drsqr rsqr, Some (xc, r)).

(** ** Triangulation, alignment.cpp:164-337 *)

(** Loop state of the "set up the edge buffer" loop: last assigned (xc, r) – [None] while still
    uninitialised –, the edges collected so far (edges[0..nedge-1]) and the allocated size emax. *)
Record scan_state := Scan { sc_cc : option (F * F); sc_edges : list edge; sc_emax : Z }.

(** Write edges[nedge..nedge+2] (alignment.cpp:255-273): grow the buffer by 100 when
    nedge + 3 >= emax, then store; out of bounds if the buffer is still too small. *)
Definition push3 (s : list edge * Z) (t : tri) : res (list edge * Z) :=
  let '(es, emax) := s in
  let nedge := Z.of_nat (length es) in
  let emax := if emax <=? nedge + 3 then emax + 100 else emax in
  if nedge + 2 <? emax then
    Ok (es ++ [Edge (t1 t) (t2 t); Edge (t2 t) (t3 t); Edge (t3 t) (t1 t)], emax)
  else UB OobWrite.

(** alignment.cpp:238-279, body of the loop over j for the point (xp,yp); an array element is a
    triangle together with its "complete" flag. *)
Definition scan_body (pts : list point) (xp yp : F) (s : scan_state) (tc : tri * bool)
  : res (scan_state * option (tri * bool)) :=
  let '(t, complete) := tc in
  if complete then Ok (s, Some tc)
  else
    do p1 <- rdz pts (t1 t); do p2 <- rdz pts (t2 t); do p3 <- rdz pts (t3 t);
    let '(inside, cc') := CircumCircle xp yp (px p1) (py p1) (px p2) (py p2) (px p3) (py p3) in
    let cc := match cc' with Some _ => cc' | None => sc_cc s end in
    match cc with
    | None => UB UninitRead                       (* line 249 reads xc and r *)
    | Some (xc, r) =>
        let complete := if flt N (fadd N xc r) xp then true else complete in
        if inside then
          do '(es, emax) <- push3 (sc_edges s, sc_emax s) t;
          Ok (Scan cc es emax, None)
        else Ok (Scan cc (sc_edges s) (sc_emax s), Some (t, complete))
    end.

(** alignment.cpp:285-305: tagging of multiple edges. *)
Definition tagged : edge := Edge (-1) (-1).
Definition tag_pair (a b : edge) : edge * edge :=
  let '(a, b) := if (e1 a =? e2 b) && (e2 a =? e1 b) then (tagged, tagged) else (a, b) in
  if (e1 a =? e1 b) && (e2 a =? e2 b) then (tagged, tagged) else (a, b).
Fixpoint tag_row (a : edge) (rest : list edge) : edge * list edge :=   (* the loop over k *)
  match rest with
  | [] => (a, [])
  | b :: rest =>
      let '(a, b) := tag_pair a b in
      let '(a, rest) := tag_row a rest in (a, b :: rest)
  end.
Fixpoint tag_edges (fuel : nat) (l : list edge) : list edge :=         (* the loop over j *)
  match fuel, l with
  | S fuel, a :: rest => let '(a, rest) := tag_row a rest in a :: tag_edges fuel rest
  | _, _ => l
  end.

(** alignment.cpp:311-320: new triangles (p1, p2, i); [cap] is the smaller of the two array sizes
    (triangles[3*64] and complete[4*nv]). *)
Fixpoint new_tris (cap : Z) (i : Z) (es : list edge) (l : list (tri * bool)) : res (list (tri * bool)) :=
  match es with
  | [] => Ok l
  | e :: es =>
      if (e1 e <? 0) || (e2 e <? 0) then new_tris cap i es l
      else if Z.of_nat (length l) <? cap then new_tris cap i es (l ++ [(Tri (e1 e) (e2 e) i, false)])
      else UB OobWrite
  end.

(** alignment.cpp:227-321, body of the loop over the points. *)
Definition add_point (cap : Z) (pts : list point) (st : option (F * F) * Z * list (tri * bool)) (i : Z)
  : res (option (F * F) * Z * list (tri * bool)) :=
  let '(cc, emax, l) := st in
  do p <- rdz pts i;
  do '(s, l) <- sweep_all (scan_body pts (px p) (py p)) (Scan cc [] emax) l;
  let es := tag_edges (length (sc_edges s)) (sc_edges s) in
  do l <- new_tris cap i es l;
  Ok (sc_cc s, sc_emax s, l).

Fixpoint add_points (cap : Z) (pts : list point) (st : option (F * F) * Z * list (tri * bool)) (is : list Z) :=
  match is with
  | [] => Ok st
  | i :: is => do st <- add_point cap pts st i; add_points cap pts st is
  end.

(** alignment.cpp:186-205: bounding box. *)
Definition bbox_step (b : F * F * F * F) (p : point) : F * F * F * F :=
  let '(xmin, xmax, ymin, ymax) := b in
  let xmin := if flt N (px p) xmin then px p else xmin in
  let xmax := if flt N xmax (px p) then px p else xmax in
  let ymin := if flt N (py p) ymin then py p else ymin in
  let ymax := if flt N ymax (py p) then py p else ymax in
  (xmin, xmax, ymin, ymax).

(** alignment.cpp:201-218: the three supertriangle vertices. *)
Definition super_vertices (p0 : point) (ps : list point) : point * point * point :=
  let '(xmin, xmax, ymin, ymax) := fold_left bbox_step ps (px p0, px p0, py p0, py p0) in
  let dx := fsub N xmax xmin in
  let dy := fsub N ymax ymin in
  let dmax := if flt N dy dx then dx else dy in
  let xmid := fdiv N (fadd N xmax xmin) two in
  let ymid := fdiv N (fadd N ymax ymin) two in
  let d20 := fmul N (fZ N 20) dmax in
  (Pt (fsub N xmid d20) (fsub N ymid dmax),
   Pt xmid (fadd N ymid d20),
   Pt (fadd N xmid d20) (fsub N ymid dmax)).

(** alignment.cpp:326-334: drop triangles with a supertriangle vertex. *)
Definition drop_body (nv : Z) (s : unit) (t : tri) : res (unit * option tri) :=
  if (nv <=? t1 t) || (nv <=? t2 t) || (nv <=? t3 t) then Ok (s, None) else Ok (s, Some t).

(** Indices 0 .. n-1 *)
Definition zseq (n : nat) : list Z := map Z.of_nat (seq 0 n).

(** alignment.h:14 *)
Definition MAX_ALIGNMENT_POINTS : Z := 64.

(** alignment.cpp:164-337 [TriangulateActual(nv, vertex, v, ntri)] on the [nv >= 1] actual points.
    [junk]: content of the uninitialised variables xc, r ([None]: reading them is UB).
    [cap]: number of triangles the arrays can hold.
    Returns the triangles and the supertriangle vertices left in vertex[nv..nv+2]. *)
Definition triangulate_cap (cap : Z) (junk : option (F * F)) (ps : list point)
  : res (list tri * (point * point * point)) :=
  match ps with
  | [] => UB OobRead                              (* vertex[0]; callers guarantee nv > 0 *)
  | p0 :: rest =>
      let nv := Z.of_nat (length ps) in
      let '(s0, s1, s2) := super_vertices p0 rest in
      let pts := ps ++ [s0; s1; s2] in
      do '(_, _, l) <- add_points cap pts (junk, 200, [(Tri nv (nv + 1) (nv + 2), false)]) (zseq (length ps));
      do '(_, l) <- sweep_all (drop_body nv) tt (map fst l);
      Ok (l, (s0, s1, s2))
  end.

(** The arrays really have min(3*64, 4*nv) usable entries: triangles[3 * maxVertices]
    (alignment.cpp:21) and complete[4 * nv] (alignment.cpp:177-178). *)
Definition real_cap (nv : Z) : Z := Z.min (3 * MAX_ALIGNMENT_POINTS) (4 * nv).
Definition triangulate (junk : option (F * F)) (ps : list point) : res (list tri * (point * point * point)) :=
  triangulate_cap (real_cap (Z.of_nat (length ps))) junk ps.

(** ** The object: memory of the three arrays plus the two counters (alignment.h:46-55).
    [verts]: the 67 VertexPairs (default member initialisers make them 0);
    [tris]: triangles[0..numTriangles-1]; [mats]: the 192 matrices, [None] = never written. *)
Record align := Align {
  numVertices : Z; verts : list vpair; tris : list tri; mats : list (option (mat N)) }.
Definition numTriangles (a : align) : Z := Z.of_nat (length (tris a)).

Definition zero_pair : vpair := VP (Pt (fZ N 0) (fZ N 0)) (Pt (fZ N 0) (fZ N 0)).
(** alignment.cpp:17-23, constructor *)
Definition align_init : align := Align 0 (repeat zero_pair 67) [] (repeat None 192).

(** Environment: qsort (any function), the out-of-bounds matrix element and the uninitialised
    variables of the triangulation. *)
Context (qsort : list vpair -> list vpair) (m9 : res F) (junk : option (F * F)).

(** alignment.cpp:57-61 *)
Definition clearAll (a : align) : align := Align 0 (verts a) [] (mats a).

(** alignment.cpp:28-32 *)
Definition is_duplicate (a : align) (p : point) : bool :=
  existsb (fun v => feq N (px (actual v)) (px p) && feq N (py (actual v)) (py p))
          (firstn (Z.to_nat (numVertices a)) (verts a)).

(** alignment.cpp:34-46: unwrap reference azimuth relative to vertices[0] *)
Definition unwrap (first : vpair) (r : point) : point :=
  let r := if flt N (fZ N 180) (fsub N (px (reference first)) (px r))
           then Pt (fadd N (px r) (fZ N 360)) (py r) else r in
  if flt N (fsub N (px (reference first)) (px r)) (fZ N (-180))
  then Pt (fsub N (px r) (fZ N 360)) (py r) else r.

(** alignment.cpp:25-55 [addVertexPair] *)
Definition addVertexPair (a : align) (act refp : point) : res (bool * align) :=
  if is_duplicate a act then Ok (false, a)
  else
    do refp <- (if 0 <? numVertices a then do v0 <- rd (verts a) 0; Ok (unwrap v0 refp) else Ok refp);
    do mem <- wr (verts a) (Z.to_nat (numVertices a)) (VP act refp);
    let n := (numVertices a + 1) mod MAX_ALIGNMENT_POINTS in
    let k := Z.to_nat n in
    Ok (true, Align n (qsort (firstn k mem) ++ skipn k mem) (tris a) (mats a)).

(** vertices[triangles[i].pX] *)
Definition vtx (a : align) (i : Z) : res vpair := rdz (verts a) i.

(** alignment.cpp:423-431: matrices built from two points *)
Definition line_matrix (q0 q1 : point) : mat N :=
  Mat (px q0) (px q1) (fadd N (px q1) (fsub N (py q1) (py q0)))
      (py q0) (py q1) (fsub N (py q1) (fsub N (px q1) (px q0)))
      (fZ N 1) (fZ N 1) (fZ N 1).
(** alignment.cpp:446-454: matrices built from three points *)
Definition tri_matrix (q1 q2 q3 : point) : mat N :=
  Mat (px q1) (px q2) (px q3) (py q1) (py q2) (py q3) (fZ N 1) (fZ N 1) (fZ N 1).

(** alignment.cpp:433-440 / 456-463 *)
Definition solve_matrix (act refm : mat N) : res (mat N) :=
  do i <- Invert N m9 act;
  Ok (match i with Some inv => mmul N refm inv | None => identity N end).

(** alignment.cpp:417-418 *)
Definition translation (v : vpair) : mat N :=
  mset (mset (identity N) 0 2 (fsub N (px (reference v)) (px (actual v))))
       1 2 (fsub N (py (reference v)) (py (actual v))).

(** alignment.cpp:444-464: loop over the triangles, writing matrix [i] *)
Fixpoint update_tris (vs : list vpair) (ts : list tri) (i : nat) (ms : list (option (mat N))) : res (list (option (mat N))) :=
  match ts with
  | [] => Ok ms
  | t :: ts =>
      do a <- rdz vs (t1 t); do b <- rdz vs (t2 t); do c <- rdz vs (t3 t);
      do m <- solve_matrix (tri_matrix (actual a) (actual b) (actual c))
                           (tri_matrix (reference a) (reference b) (reference c));
      do ms <- wr ms i (Some m);
      update_tris vs ts (S i) ms
  end.

(** alignment.cpp:412-470 [updateTransformationMatrices] *)
Definition updateTransformationMatrices (a : align) : res align :=
  do ms <-
    (if (numTriangles a =? 0) && (numVertices a =? 1) then
       do v <- rd (verts a) 0; wr (mats a) 0 (Some (translation v))
     else if (numTriangles a =? 0) && (2 <=? numVertices a) then
       do v <- rd (verts a) 0; do w <- rd (verts a) 1;
       do m <- solve_matrix (line_matrix (actual v) (actual w)) (line_matrix (reference v) (reference w));
       wr (mats a) 0 (Some m)
     else if 1 <=? numTriangles a then update_tris (verts a) (tris a) 0 (mats a)
     else wr (mats a) 0 (Some (identity N)));
  Ok (Align (numVertices a) (verts a) (tris a) ms).

(** alignment.cpp:213-218: only the .actual members of vertex[nv..nv+2] are written. *)
Definition set_actual (mem : list vpair) (i : nat) (p : point) : res (list vpair) :=
  do v <- rd mem i; wr mem i (VP p (reference v)).

(** alignment.cpp:88-95 [TriangulateActual()] *)
Definition TriangulateActual (a : align) : res align :=
  do a <-
    (if 0 <? numVertices a then
       let n := Z.to_nat (numVertices a) in
       do '(ts, (s0, s1, s2)) <- triangulate junk (map actual (firstn n (verts a)));
       do mem <- set_actual (verts a) n s0;
       do mem <- set_actual mem (n + 1) s1;
       do mem <- set_actual mem (n + 2) s2;
       Ok (Align (numVertices a) mem ts (mats a))
     else Ok a);
  updateTransformationMatrices a.

(** alignment.cpp:526-529 [triangleArea] *)
Definition triangleArea (p1 p2 p3 : point) : F :=
  fabs N (fdiv N (fadd N (fadd N (fmul N (px p1) (fsub N (py p2) (py p3)))
                                 (fmul N (px p2) (fsub N (py p3) (py p1))))
                         (fmul N (px p3) (fsub N (py p1) (py p2)))) two).

(** alignment.cpp:531-539 [isInTriangle]: four float variables, float sums, threshold 0.0001 (double) *)
Definition isInTriangle (p p1 p2 p3 : point) : bool :=
  let area := f32 N (triangleArea p1 p2 p3) in
  let area1 := f32 N (triangleArea p p2 p3) in
  let area2 := f32 N (triangleArea p1 p p3) in
  let area3 := f32 N (triangleArea p1 p2 p) in
  flt N (fabs N (f32 N (fsub N area (f32 N (fadd N (f32 N (fadd N area1 area2)) area3))))) (fq N 1 10000).

(** alignment.cpp:356-365 / 393-402: index of the first triangle that contains the point *)
Fixpoint find_containing (vs : list vpair) (p : point) (ts : list tri) (i : Z) : res (option Z) :=
  match ts with
  | [] => Ok None
  | t :: ts =>
      do a <- rdz vs (t1 t); do b <- rdz vs (t2 t); do c <- rdz vs (t3 t);
      if isInTriangle p (actual a) (actual b) (actual c) then Ok (Some i)
      else find_containing vs p ts (i + 1)
  end.

(** alignment.cpp:498-506: (float) squared distance from the centroid *)
Definition centroid_distance (p : point) (a b c : point) : F :=
  let az := fdiv N (fadd N (fadd N (px a) (px b)) (px c)) (fZ N 3) in
  let alt := fdiv N (fadd N (fadd N (py a) (py b)) (py c)) (fZ N 3) in
  f32 N (fadd N (fmul N (fsub N az (px p)) (fsub N az (px p)))
                (fmul N (fsub N alt (py p)) (fsub N alt (py p)))).

(** alignment.cpp:472-514 [nearestTriangle]; minDistance starts at INFINITY ([None]) and the index at -1 *)
Fixpoint nearest_loop (vs : list vpair) (p : point) (ts : list tri) (i : Z) (best : option F) (idx : Z) : res Z :=
  match ts with
  | [] => Ok idx
  | t :: ts =>
      do a <- rdz vs (t1 t); do b <- rdz vs (t2 t); do c <- rdz vs (t3 t);
      let d := centroid_distance p (actual a) (actual b) (actual c) in
      if (match best with None => flt_inf N d | Some m => flt N d m end)
      then nearest_loop vs p ts (i + 1) (Some d) i
      else nearest_loop vs p ts (i + 1) best idx
  end.
Definition nearestTriangle (a : align) (p : point) : res Z := nearest_loop (verts a) p (tris a) 0 None (-1).

Definition rdmat (a : align) (i : Z) : res (mat N) :=
  do o <- rdz (mats a) i; match o with Some m => Ok m | None => UB UninitRead end.

(** alignment.cpp:343-378 [getTransformationMatrix] *)
Definition getTransformationMatrix (a : align) (p : point) : res (mat N) :=
  if (numTriangles a =? 0) && (numVertices a =? 1) then rdmat a 0
  else if (numTriangles a =? 0) && (2 <=? numVertices a) then rdmat a 0
  else if 1 <=? numTriangles a then
    do o <- find_containing (verts a) p (tris a) 0;
    match o with
    | Some i => rdmat a i
    | None =>
        do k <- nearestTriangle a p;
        if 0 <=? k then rdmat a k else Ok (identity N)
    end
  else Ok (identity N).

(** alignment.cpp:380-410 [getTransformationType] *)
Definition getTransformationType (a : align) (p : point) : res ttype :=
  if (numTriangles a =? 0) && (numVertices a =? 1) then Ok POINT
  else if (numTriangles a =? 0) && (2 <=? numVertices a) then Ok LINE
  else if 1 <=? numTriangles a then
    do o <- find_containing (verts a) p (tris a) 0;
    match o with Some _ => Ok TRIANGLE_IN | None => Ok TRIANGLE_OUT end
  else Ok NONE.

(** alignment.cpp:516-524 [getCalibratedOrientation] *)
Definition getCalibratedOrientation (a : align) (p : point) : res point :=
  do m <- getTransformationMatrix a p;
  let out := mvmul N m (Vec (px p) (py p) (fZ N 1)) in
  Ok (Pt (f_mod N (v0 out) (fZ N 360)) (v1 out)).
End Alignment.

Arguments Pt {N}. Arguments px {N}. Arguments py {N}.
Arguments VP {N}. Arguments actual {N}. Arguments reference {N}.
Arguments Align {N}. Arguments numVertices {N}. Arguments verts {N}. Arguments tris {N}. Arguments mats {N}.
Arguments numTriangles {N}.
Arguments Scan {N}. Arguments sc_cc {N}. Arguments sc_edges {N}. Arguments sc_emax {N}.

(** alignment.cpp:3-15 [XYZCompare] as "less than"; reference sorter: stable insertion sort *)
Section Sort.
Context (N : Num).
Definition xyz_lt (a b : vpair N) : bool := flt N (px (actual a)) (px (actual b)).
Fixpoint insert_sorted (v : vpair N) (l : list (vpair N)) : list (vpair N) :=
  match l with
  | [] => [v]
  | w :: l' => if xyz_lt v w then v :: l else w :: insert_sorted v l'
  end.
Definition insertion_sort (l : list (vpair N)) : list (vpair N) :=
  fold_left (fun acc v => insert_sorted v acc) l [].
End Sort.

(** *** Tests of the executable instance against the repository's own unit-test vectors
    (test/test_common/test_alignment*.hpp); these are tests, not proofs. *)
Definition sfp (x y : Z) : point NumSF := Pt (sf_ofZ x : F NumSF) (sf_ofZ y).
Definition show_tris (r : res (list tri * (point NumSF * point NumSF * point NumSF))) : option (list (Z * Z * Z)) :=
  match r with Ok (l, _) => Some (map (fun t => (t1 t, t2 t, t3 t)) l) | UB _ => None end.
Example triangulate_test1 :
  show_tris (triangulate NumSF None [sfp 3 5; sfp 7 2; sfp 8 8; sfp 9 2]) = Some [(1, 2, 3); (1, 0, 2)].
Proof. vm_compute. reflexivity. Qed.
Example triangulate_test2 :
  show_tris (triangulate NumSF None [sfp 1 8; sfp 2 1; sfp 3 1; sfp 7 8; sfp 10 6]) =
  Some [(2, 3, 4); (1, 0, 2); (2, 0, 3)].
Proof. vm_compute. reflexivity. Qed.
Example triangulate_test3 :
  show_tris (triangulate NumSF None [sfp 1 8; sfp 3 5; sfp 4 7; sfp 5 1; sfp 10 5]) =
  Some [(3, 1, 4); (1, 0, 2); (1, 2, 4); (0, 1, 3)].
Proof. vm_compute. reflexivity. Qed.
Definition show_ub {A} (r : res A) : option ub := match r with UB u => Some u | Ok _ => None end.
Example triangulate_one_point_uninit :
  show_ub (triangulate NumSF None [sfp 3 5]) = Some UninitRead.
Proof. vm_compute. reflexivity. Qed.
