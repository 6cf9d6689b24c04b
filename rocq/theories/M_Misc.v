(** Model of the routines with hidden state and of the small utilities:
    random.cc:35-56, gresid.cc:37-81, veri.cc:35-38, vers.cc:27-47, wait.cc:31-33. *)
From Coq Require Import ZArith Bool List String Decimal DecimalString.
From Verif Require Import Int32 Num.
Import ListNotations.
Open Scope num_scope.

Section Engine.
Context {N : Num}.

(** std::default_random_engine and std::generate_canonical are implementation
    defined: a state, the default-constructed one, the one generator.seed(i)
    makes, and the next float with the state after it. *)
Record engine : Type := Engine {
  gs :> Type;
  g_default : gs;
  g_seed : Z -> gs;
  g_next : gs -> N * gs }.

Context (E : engine).

(** random.cc:36-37, the static variables and their initial values. *)
Record rstate : Type := Rst { r_gen : gs E; r_first : bool }.
Definition random_start : rstate := Rst (g_default E) true.

(** random.cc:47-51.  [log10] is std::log10; std::pow(float, int) and the
    division are double in the program, one type [N] here. *)
Definition random_iseed (log10 : N -> N) (seed : N) : option Z :=
  let aseed := n_abs seed + #1 in
  match f_nint (log10 aseed) with
  | None => None
  | Some k =>
    match chk (k - 6) with
    | None => None
    | Some k6 =>
      match f_nint (aseed / n_pow #10 (n_ofZ k6)) with
      | None => None
      | Some i => if Z.eqb (Z.land i 1) 0 then chk (i + 1) else Some i
      end
    end
  end.

(** random.cc:35-56; None: undefined behaviour in a cast. *)
Definition random (log10 : N -> N) (seed : N) (s : rstate) : option (N * rstate) :=
  let start := if r_first s
               then match random_iseed log10 seed with Some i => Some (g_seed E i) | None => None end
               else Some (r_gen s) in
  match start with
  | None => None
  | Some g => let '(u, g') := g_next E g in Some (u, Rst g' false)
  end.

(** gresid.cc:38-40. *)
Record gstate : Type := Gst { g_gen : gs E; g_nxt : N; g_ftf : bool; g_first : bool }.
Definition gresid_start : gstate := Gst (g_default E) #0 true true.

(** gresid.cc:57-64; the do-while loop with [fuel] passes, None when they do not
    suffice. *)
Fixpoint disc (fuel : nat) (g : gs E) : option (N * N * N * gs E) :=
  match fuel with
  | O => None
  | S fuel =>
    let '(u, g) := g_next E g in let x := #2 * u - #1 in
    let '(v, g) := g_next E g in let y := #2 * v - #1 in
    let r := x * x + y * y in
    if r >=? #1 then disc fuel g else Some (x, y, r, g)
  end.

(** gresid.cc:37-81. *)
Definition gresid (fuel : nat) (stdev : N) (s : gstate) : option (N * gstate) :=
  let g0 := if g_ftf s then g_seed E 123456789 else g_gen s in
  if g_first s then
    match disc fuel g0 with
    | None => None
    | Some (x, y, r, g) =>
      let w := n_sqrt ((- #2) * n_log r / n_max r (n_lit 1 (-20))) in
      Some (y * w * stdev, Gst g (x * w) false false)
    end
  else Some (g_nxt s * stdev, Gst g0 (g_nxt s) false true).

(** wait.cc:31-33: the argument of std::chrono::seconds; None: undefined
    behaviour in the cast.  sleep_for does not wait for a negative duration. *)
Definition wait_seconds (seconds : N) : option Z := f_nint seconds.

End Engine.
Arguments engine : clear implicits.

(** Calls in sequence on one state, and on the states of several threads
    (slalib.h:27-33, SLALIB_THREAD_LOCAL = thread_local): [call] is one of the two
    routines, a schedule says which thread calls next and with what argument. *)
Section Calls.
Context {A V S : Type} (call : A -> S -> option (V * S)).
Fixpoint calls (l : list A) (s : S) : option (list V * S) :=
  match l with
  | [] => Some ([], s)
  | a :: l =>
    match call a s with
    | None => None
    | Some (v, s) => match calls l s with None => None | Some (vs, s) => Some (v :: vs, s) end
    end
  end.
Definition upd (f : nat -> S) (i : nat) (x : S) : nat -> S := fun j => if Nat.eqb j i then x else f j.
Fixpoint schedule (l : list (nat * A)) (s : nat -> S) : option (list (nat * V) * (nat -> S)) :=
  match l with
  | [] => Some ([], s)
  | (i, a) :: l =>
    match call a (s i) with
    | None => None
    | Some (v, si) => match schedule l (upd s i si) with None => None | Some (vs, s) => Some ((i, v) :: vs, s) end
    end
  end.
End Calls.

(** slalib.h:39-41. *)
Definition version_major : Z := 2.
Definition version_minor : Z := 5.
Definition version_release : Z := 7.

(** veri.cc:35-38, for the three numbers the header gives. *)
Definition veri_of (major minor release : Z) : option Z :=
  iadd (iadd (imul (Some major) (Some 1000000%Z)) (imul (Some minor) (Some 1000%Z))) (Some release).
Definition veri : option Z := veri_of version_major version_minor version_release.

(** vers.cc:27-30, 45-47, for header numbers written in decimal. *)
Definition stringify (z : Z) : string := NilZero.string_of_int (Z.to_int z).
Definition vers_of (major minor release : Z) : string :=
  (stringify major ++ "." ++ stringify minor ++ "-" ++ stringify release)%string.
Definition vers : string := vers_of version_major version_minor version_release.
