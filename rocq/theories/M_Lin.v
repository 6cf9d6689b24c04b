(** Models of the linear-algebra routines, over any [Num].  Files are relative
    to /repo/src.

    A two-dimensional array is a function of its two indices, a one-dimensional
    array a function of one index, and an assignment replaces the function.
    The sources reach every two-dimensional array through an accessor
    (dmat.cc:56-59, svd.cc:69-80, svdsol.cc:78-85, svdcov.cc:42-49) that sends
    (row, column), column < stride, to row * stride + column, so different
    index pairs are different cells; the stride itself is not modelled.  Sizes
    and indices are natural numbers: a negative size makes every loop empty, as
    size 0 does. *)
From Coq Require Import ZArith Bool List Arith.
From Verif Require Import Num.
Open Scope num_scope.

(** [for (i = lo; i < hi; i++) s = body(i, s)]. *)
Definition for_ {S : Type} (lo hi : nat) (body : nat -> S -> S) (s : S) : S :=
  fold_left (fun s i => body i s) (seq lo (hi - lo)) s.

(** a[i] = x and a[i][j] = x. *)
Definition set1 {T : Type} (a : nat -> T) (i : nat) (x : T) : nat -> T :=
  fun i' => if Nat.eqb i' i then x else a i'.
Definition set2 {T : Type} (a : nat -> nat -> T) (i j : nat) (x : T) : nat -> nat -> T :=
  fun i' j' => if (Nat.eqb i' i && Nat.eqb j' j)%bool then x else a i' j'.

Section Lin.
Context {N : Num}.

Definition vx := nat -> N.
Definition mx := nat -> nat -> N.

(** dmat.cc:61, smat.cc:61. *)
Definition epsilon : N := n_lit 1 (-20).

(** dmat.cc:67-77: (amx, imx) for column [k]. *)
Definition dmat_pivot (n k : nat) (a : mx) : N * nat :=
  for_ (S k) n (fun i s => let t0 := n_abs (a i k) in
                           if t0 >? fst s then (t0, i) else s) (n_abs (a k k), k).

(** dmat.cc:82-86: exchange of rows [k] and [i]. *)
Definition row_swap (n k i : nat) (a : mx) : mx :=
  for_ 0 n (fun j a => let t1 := a k j in set2 (set2 a k j (a i j)) i j t1) a.

(** dmat.cc:87-89. *)
Definition vec_swap (k i : nat) (v : vx) : vx :=
  let t2 := v k in set1 (set1 v k (v i)) i t2.

(** dmat.cc:98-122, [a] and [v] after the elimination of column [k]. *)
Definition dmat_eliminate (n k : nat) (a : mx) (v : vx) : mx * vx :=
  let akk := #1 / a k k in
  let a := set2 a k k akk in
  let a := for_ 0 n (fun j a => if negb (Nat.eqb j k) then set2 a k j (a k j * akk) else a) a in
  let yk := v k * akk in
  let v := set1 v k yk in
  let '(a, v) :=
    for_ 0 n (fun i s => let '(a, v) := s in
      let aik := a i k in
      if negb (Nat.eqb i k) then
        (for_ 0 n (fun j a => if negb (Nat.eqb j k) then set2 a i j (a i j - aik * a k j) else a) a,
         set1 v i (v i - aik * yk))
      else (a, v)) (a, v) in
  (for_ 0 n (fun i a => if negb (Nat.eqb i k) then set2 a i k (- (a i k) * akk) else a) a, v).

(** The variables of dmat.cc:52-65. *)
Record dmat_st := DmatSt { d_mat : mx; d_vec : vx; d_det : N; d_ws : nat -> nat; d_singular : bool }.

(** dmat.cc:66-125, one iteration. *)
Definition dmat_step (n k : nat) (s : dmat_st) : dmat_st :=
  let '(DmatSt a v det ws singular) := s in
  let '(amx, imx) := dmat_pivot n k a in
  if amx <? epsilon then DmatSt a v det ws true
  else
    let '(a, v, det) :=
      if negb (Nat.eqb imx k) then (row_swap n k imx a, vec_swap k imx v, - det) else (a, v, det) in
    let ws := set1 ws k imx in
    let det := det * a k k in
    if n_abs det <? epsilon then DmatSt a v det ws true
    else let '(a, v) := dmat_eliminate n k a v in DmatSt a v det ws singular.

(** dmat.cc:134-138: exchange of columns [p] and [q]. *)
Definition col_swap (n p q : nat) (a : mx) : mx :=
  for_ 0 n (fun i a => let t3 := a i p in set2 (set2 a i p (a i q)) i q t3) a.

(** dmat.cc:130-140. *)
Definition dmat_unscramble (n : nat) (ws : nat -> nat) (a : mx) : mx :=
  for_ 0 n (fun k a =>
    let np1mk := (n - 1 - k)%nat in
    let ki := ws np1mk in
    if negb (Nat.eqb np1mk ki) then col_swap n np1mk ki a else a) a.

(** dmat.cc:52-143 and smat.cc:52-143: the value returned and the contents of
    mat, vec and det on return.  [ws] is the workspace on entry. *)
Definition dmat (n : nat) (mat : mx) (vec : vx) (ws : nat -> nat) : bool * mx * vx * N :=
  let s := for_ 0 n (dmat_step n) (DmatSt mat vec #1 ws false) in
  if d_singular s then (true, d_mat s, d_vec s, #0)
  else (false, dmat_unscramble n (d_ws s) (d_mat s), d_vec s, d_det s).

(** svdsol.cc:74-107: the contents of [x]; [x0] and [ws0] are the arrays on
    entry. *)
Definition svdsol_ws (m n : nat) (b : vx) (u : mx) (w ws0 : vx) : vx :=
  for_ 0 n (fun j ws =>
    let s1 := if negb (w j =? #0)
              then for_ 0 m (fun i s1 => s1 + u i j * b i) #0 / w j
              else #0 in
    set1 ws j s1) ws0.
Definition svdsol (m n : nat) (b : vx) (u : mx) (w : vx) (v : mx) (ws0 x0 : vx) : vx :=
  let ws := svdsol_ws m n b u w ws0 in
  for_ 0 n (fun k x => set1 x k (for_ 0 n (fun l s2 => s2 + v k l * ws l) #0)) x0.

(** svdcov.cc:39-65: the contents of [cvm]. *)
Definition svdcov_ws (n : nat) (w ws0 : vx) : vx :=
  for_ 0 n (fun l ws => let s1 := w l in
    set1 ws l (if negb (s1 =? #0) then #1 / (s1 * s1) else #0)) ws0.
Definition svdcov (n : nat) (w : vx) (v : mx) (ws0 : vx) (cvm0 : mx) : mx :=
  let ws := svdcov_ws n w ws0 in
  for_ 0 n (fun i c =>
    for_ 0 (S i) (fun j c =>
      let s2 := for_ 0 n (fun k s2 => s2 + v i k * v j k * ws k) #0 in
      set2 (set2 c i j s2) j i s2) c) cvm0.

End Lin.
Arguments vx N : clear implicits.
Arguments mx N : clear implicits.
