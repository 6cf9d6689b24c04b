(** Model of the singular value decomposition, svd.cc:67-378, over any [Num].
    Arrays and loops as in M_Lin.  The variables s, f, h, c, x, y, z of
    svd.cc:98 carry nothing from one phase to the next. *)
From Coq Require Import ZArith Bool List Arith.
From Verif Require Import Num M_Lin.
Open Scope num_scope.

(** [for (i = n - 1; i >= 0; i--) s = body(i, s)]. *)
Fixpoint down_ {S : Type} (n : nat) (body : nat -> S -> S) (s : S) : S :=
  match n with O => s | Datatypes.S i => down_ i body (body i s) end.

Section Svd.
Context {N : Num}.

(** The sum of x y over lo <= k < hi, as svd.cc:125-128, 163-166, 192-195 and
    226-229 accumulate it. *)
Definition dotp (lo hi : nat) (x y : nat -> N) : N := for_ lo hi (fun k s => s + x k * y k) #0.

(** svd.cc:106-139: the array, g and scale after the reduction of column [i]. *)
Definition left_step (m n i : nat) (a : mx N) : mx N * N * N :=
  let l := S i in
  if (i <? m)%nat then
    let scale := for_ i m (fun k scale => scale + n_abs (a k i)) #0 in
    if negb (scale =? #0) then
      let '(a, s) := for_ i m (fun k st => let '(a, s) := st in
        let x := a k i / scale in (set2 a k i x, s + x * x)) (a, #0) in
      let f := a i i in
      let g := - f_sign (n_sqrt s) f in
      let h := f * g - s in
      let a := set2 a i i (f - g) in
      let a := if negb (Nat.eqb i (n - 1)) then
        for_ l n (fun j a =>
          let s := dotp i m (fun k => a k i) (fun k => a k j) in
          let f := s / h in
          for_ i m (fun k a => set2 a k j (a k j + f * a k i)) a) a
        else a in
      let a := for_ i m (fun k a => set2 a k i (a k i * scale)) a in
      (a, g, scale)
    else (a, #0, scale)
  else (a, #0, #0).

(** svd.cc:141-176: the array, ws, g and scale after the reduction of row [i]. *)
Definition right_step (m n i : nat) (a : mx N) (ws : vx N) : mx N * vx N * N * N :=
  let l := S i in
  if ((i <? m)%nat && negb (Nat.eqb i (n - 1)))%bool then
    let scale := for_ l n (fun k scale => scale + n_abs (a i k)) #0 in
    if negb (scale =? #0) then
      let '(a, s) := for_ l n (fun k st => let '(a, s) := st in
        let x := a i k / scale in (set2 a i k x, s + x * x)) (a, #0) in
      let f := a i l in
      let g := - f_sign (n_sqrt s) f in
      let h := f * g - s in
      let a := set2 a i l (f - g) in
      let ws := for_ l n (fun k ws => set1 ws k (a i k / h)) ws in
      let a := if negb (Nat.eqb i (m - 1)) then
        for_ l m (fun j a =>
          let s := dotp l n (fun k => a j k) (fun k => a i k) in
          for_ l n (fun k a => set2 a j k (a j k + s * ws k)) a) a
        else a in
      let a := for_ l n (fun k a => set2 a i k (a i k * scale)) a in
      (a, ws, g, scale)
    else (a, ws, #0, scale)
  else (a, ws, #0, #0).

(** The variables of the first phase. *)
Record bid := Bid { b_a : mx N; b_w : vx N; b_ws : vx N; b_g : N; b_scale : N; b_an : N }.

(** svd.cc:103-179, one iteration. *)
Definition bid_step (m n i : nat) (st : bid) : bid :=
  let '(Bid a w ws g scale an) := st in
  let ws := set1 ws i (scale * g) in
  let '(a, g, scale) := left_step m n i a in
  let w := set1 w i (scale * g) in
  let '(a, ws, g, scale) := right_step m n i a ws in
  Bid a w ws g scale (n_max an (n_abs (w i) + n_abs (ws i))).

(** svd.cc:185-209, one iteration; [g] is ws[i + 1] and l is i + 1. *)
Definition vacc_step (n : nat) (a : mx N) (ws : vx N) (i : nat) (v : mx N) : mx N :=
  let v := if negb (Nat.eqb i (n - 1)) then
    let l := S i in
    let g := ws l in
    let v := if negb (g =? #0) then
      let v := for_ l n (fun j v => set2 v j i ((a i j / a i l) / g)) v in
      for_ l n (fun j v =>
        let s := dotp l n (fun k => a i k) (fun k => v k j) in
        for_ l n (fun k v => set2 v k j (v k j + s * v k i)) v) v
      else v in
    for_ l n (fun j v => set2 (set2 v i j #0) j i #0) v
    else v in
  set2 v i i #1.

(** svd.cc:215-245, one iteration. *)
Definition uacc_step (m n : nat) (w : vx N) (i : nat) (a : mx N) : mx N :=
  let l := S i in
  let g := w i in
  let a := if negb (Nat.eqb i (n - 1)) then for_ l n (fun j a => set2 a i j #0) a else a in
  let a := if negb (g =? #0) then
    let a := if negb (Nat.eqb i (n - 1)) then
      for_ l n (fun j a =>
        let s := dotp l m (fun k => a k i) (fun k => a k j) in
        let f := (s / a i i) / g in
        for_ i m (fun k a => set2 a k j (a k j + f * a k i)) a) a
      else a in
    for_ i m (fun j a => set2 a j i (a j i / g)) a
    else for_ i m (fun j a => set2 a j i #0) a in
  set2 a i i (a i i + #1).

(** The arrays during the last phase, and a ghost: [q_skip] records that a
    cancellation was entered with l < k. *)
Record qr := Qr { q_a : mx N; q_w : vx N; q_v : mx N; q_ws : vx N; q_skip : bool }.

(** svd.cc:260-272: [Some (l, cancel)]; [None]: w[-1] would be read. *)
Fixpoint split (an : N) (w ws : vx N) (l : nat) : option (nat * bool) :=
  if an + n_abs (ws l) =? an then Some (l, false)
  else match l with
       | O => None
       | S l1 => if an + n_abs (w l1) =? an then Some (l, true) else split an w ws l1
       end.

(** svd.cc:287-292, 349-354, 363-368: columns [p] and [q] rotated. *)
Definition rot_cols (rows p q : nat) (c s : N) (a : mx N) : mx N :=
  for_ 0 rows (fun j a => let y := a j p in let z := a j q in
    set2 (set2 a j p (y * c + z * s)) j q (- y * s + z * c)) a.

(** svd.cc:275-294; l1 = l - 1.  The boolean says whether the loop was left. *)
Definition cancel_step (m : nat) (an : N) (l : nat) (i : nat) (st : qr * N * bool) : qr * N * bool :=
  let '(q, s, stop) := st in
  if stop then st
  else
    let f := s * q_ws q i in
    if an + n_abs f =? an then (q, s, true)
    else
      let g := q_w q i in
      let h := n_sqrt (f * f + g * g) in
      let c := g / h in
      let s := - f / h in
      (Qr (rot_cols m (l - 1)%nat i c s (q_a q)) (set1 (q_w q) i h) (q_v q) (q_ws q) (q_skip q), s, false).
Definition cancel_all (m : nat) (an : N) (l k : nat) (q : qr) : qr :=
  let '(Qr a w v ws skip) := fst (fst (for_ l (S k) (cancel_step m an l) (q, #1, false))) in
  Qr a w v ws (skip || negb (Nat.eqb l k)).

(** svd.cc:322-325: f after the shift. *)
Definition shift (x y z g h : N) : N :=
  let f := ((y - z) * (y + z) + (g - h) * (g + h)) / (#2 * h * y) in
  let abs_f := n_abs f in
  let g := if abs_f >? n_lit 1 15 then abs_f else n_sqrt (f * f + #1) in
  ((x - z) * (x + z) + h * (y / (f + f_sign g f) - h)) / x.

(** svd.cc:330-369, one iteration; f, x, c and s are carried along. *)
Record chase := Chase { c_q : qr; c_f : N; c_x : N; c_c : N; c_s : N }.
Definition chase_step (m n i1 : nat) (st : chase) : chase :=
  let '(Chase (Qr a w v ws skip) f x c s) := st in
  let i := S i1 in
  let g := ws i in
  let y := w i in
  let h := s * g in
  let g := c * g in
  let z := n_sqrt (f * f + h * h) in
  let ws := set1 ws i1 z in
  let '(c, s) := if negb (z =? #0) then (f / z, h / z) else (#1, #0) in
  let f := x * c + g * s in
  let g := - x * s + g * c in
  let h := y * s in
  let y := y * c in
  let v := rot_cols n i1 i c s v in
  let z := n_sqrt (f * f + h * h) in
  let w := set1 w i1 z in
  let '(c, s) := if negb (z =? #0) then (f / z, h / z) else (c, s) in
  let f := c * g + s * y in
  let x := - s * g + c * y in
  let a := rot_cols m i1 i c s a in
  Chase (Qr a w v ws skip) f x c s.

(** svd.cc:317-372. *)
Definition sweep (m n l k : nat) (q : qr) : qr :=
  let x := q_w q l in
  let y := q_w q (k - 1)%nat in
  let z := q_w q k in
  let g := q_ws q (k - 1)%nat in
  let h := q_ws q k in
  let f := shift x y z g h in
  let '(Chase (Qr a w v ws skip) f x c s) := for_ l k (chase_step m n) (Chase q f x #1 #1) in
  Qr a (set1 w k x) v (set1 (set1 ws l #0) k f) skip.

(** svd.cc:303-309. *)
Definition settle (n k : nat) (q : qr) : qr :=
  let '(Qr a w v ws skip) := q in
  let z := w k in
  if z <? #0 then Qr a (set1 w k (- z)) (for_ 0 n (fun j v => set2 v j k (- v j k)) v) ws skip
  else q.

(** svd.cc:255-374, the iterations for one [k]; [todo] of them remain.  The
    status is that of svd.cc:312-315. *)
Fixpoint qr_iterate (m n : nat) (an : N) (k : nat) (todo : nat) (q : qr) (status : nat) : option (qr * nat) :=
  match todo with
  | O => Some (q, status)
  | S todo =>
    match split an (q_w q) (q_ws q) k with
    | None => None
    | Some (l, cancel) =>
      let q := if cancel then cancel_all m an l k q else q in
      if Nat.eqb l k then Some (settle n k q, status)
      else
        let status := match todo with O => k | _ => status end in
        qr_iterate m n an k todo (sweep m n l k q) status
    end
  end.

(** svd.cc:83. *)
Definition MAX_ITERATIONS : nat := 30.

(** svd.cc:251-375. *)
Fixpoint qr_all (m n : nat) (an : N) (k : nat) (q : qr) (status : nat) : option (qr * nat) :=
  match k with
  | O => Some (q, status)
  | S k =>
    match qr_iterate m n an k MAX_ITERATIONS q status with
    | None => None
    | Some (q, status) => qr_all m n an k q status
    end
  end.

(** svd.cc:67-378: the returned value and the arrays a, w, v, ws on return,
    from those on entry, with the ghost of [qr]. *)
Definition svd (m n : nat) (a : mx N) (w : vx N) (v : mx N) (ws : vx N) : option (Z * qr) :=
  if (m <? n)%nat then Some ((-1)%Z, Qr a w v ws false)
  else
    let b := for_ 0 n (bid_step m n) (Bid a w ws #0 #0 #0) in
    let v := down_ n (vacc_step n (b_a b) (b_ws b)) v in
    let u := down_ n (uacc_step m n (b_w b)) (b_a b) in
    match qr_all m n (b_an b) n (Qr u (b_w b) v (b_ws b) false) 0 with
    | None => None
    | Some (q, status) => Some (Z.of_nat status, q)
    end.

End Svd.
Arguments qr N : clear implicits.
Arguments bid N : clear implicits.
Arguments chase N : clear implicits.
