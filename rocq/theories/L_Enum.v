(** Proofs about the generators. *)
From Coq Require Import ZArith List Sorted Permutation Lia Bool Factorial.
From Verif Require Import Int32 M_Enum S_Enum.
Import ListNotations.
Open Scope Z_scope.

(** ** Arrays *)
Lemma aget_mid pre x post : aget (pre ++ x :: post) (length pre) = Some x.
Proof. unfold aget. rewrite nth_error_app2, Nat.sub_diag by lia. reflexivity. Qed.
Lemma aset_mid pre x post v : aset (pre ++ x :: post) (length pre) v = Some (pre ++ v :: post).
Proof.
  unfold aset. rewrite app_length. cbn [length]. destruct (Nat.ltb_spec (length pre) (length pre + S (length post))); [|lia].
  f_equal. rewrite firstn_app, firstn_all, Nat.sub_diag. cbn [firstn]. rewrite app_nil_r. f_equal. f_equal.
  rewrite skipn_app. rewrite skipn_all2 by lia. replace (S (length pre) - length pre)%nat with 1%nat by lia. reflexivity.
Qed.

Lemma run_of_S lo n : run_of lo (S n) = lo :: run_of (lo + 1) n.
Proof. unfold run_of. cbn [seq map]. f_equal; [lia|]. rewrite <- seq_shift, map_map. apply map_ext. intros; lia. Qed.
Lemma run_of_snoc lo n : run_of lo (S n) = run_of lo n ++ [lo + Z.of_nat n].
Proof. unfold run_of. rewrite seq_S, map_app. reflexivity. Qed.
Lemma run_of_length lo n : length (run_of lo n) = n.
Proof. unfold run_of. rewrite map_length, seq_length. reflexivity. Qed.

Lemma fill_up_spec n j0 : forall pre mid post, length pre = j0 -> length mid = n ->
  fill_up n j0 (pre ++ mid ++ post) = Some (pre ++ run_of (Z.of_nat (S j0)) n ++ post).
Proof.
  revert j0. induction n as [|n IH]; intros j0 pre mid post P M.
  - destruct mid; [|discriminate]. reflexivity.
  - destruct mid as [|x mid]; [discriminate|]. cbn [fill_up]. rewrite <- P. cbn [app]. rewrite aset_mid. cbn [bind].
    rewrite run_of_S. injection M as M.
    replace (pre ++ Z.of_nat (S (length pre)) :: mid ++ post) with ((pre ++ [Z.of_nat (S (length pre))]) ++ mid ++ post) by (rewrite <- app_assoc; reflexivity).
    rewrite IH by (rewrite ?app_length; cbn [length]; lia).
    rewrite <- app_assoc. cbn [app]. do 3 f_equal. f_equal. f_equal. lia.
Qed.
Lemma fill_all n a : length a = n -> fill_up n 0 a = Some (run_of 1 n).
Proof. intros L. pose proof (fill_up_spec n 0 [] a [] eq_refl L) as H. cbn [app] in H. rewrite !app_nil_r in H. exact H. Qed.

(** ** combn: the abstract successor *)
Fixpoint next (i : nat) (l : list Z) (top : Z) : option (list Z) :=
  match l with
  | [] => None
  | x :: rest =>
    let nmax := match rest with [] => top | y :: _ => y end in
    if 1 <? nmax - x then Some (run_of 1 i ++ (x + 1) :: rest)
    else next (S i) rest top
  end.

Definition in_range (l : list Z) : Prop := Forall (fun x => 1 <= x <= INT_MAX - 1) l.

Lemma chk_ok z : INT_MIN <= z <= INT_MAX -> chk z = Some z.
Proof. intros. unfold chk, in_int. destruct (Z.leb_spec INT_MIN z), (Z.leb_spec z INT_MAX); cbn; (reflexivity || lia). Qed.

Lemma combn_from_spec fuel : forall pre rest ncand, in_range rest -> 1 <= ncand < INT_MAX -> rest <> [] -> length rest = fuel ->
  combn_from fuel (length (pre ++ rest)) (S (length pre)) ncand (pre ++ rest) =
  match next (length pre) rest (ncand + 1) with
  | Some l => Some (CPS_OK, l)
  | None => Some (CPS_NO_MORE, run_of 1 (length (pre ++ rest)))
  end.
Proof.
  induction fuel as [|fuel IH]; intros pre rest ncand IR NC NE LF; [destruct rest; cbn in LF; congruence|].
  destruct rest as [|x rest]; [congruence|]. clear NE. inversion IR as [|? ? X IR']; subst. clear IR.
  cbn [combn_from next]. replace (S (length pre) - 1)%nat with (length pre) by lia. rewrite aget_mid. cbn [bind].
  assert (LEN : length (pre ++ x :: rest) = (length pre + S (length rest))%nat) by (rewrite app_length; reflexivity).
  assert (NM : (if (length (pre ++ x :: rest) <=? S (length pre))%nat then chk (ncand + 1) else aget (pre ++ x :: rest) (S (length pre)))
     = Some (match rest with [] => ncand + 1 | y :: _ => y end)).
  { destruct (Nat.leb_spec (length (pre ++ x :: rest)) (S (length pre))) as [L|L]; rewrite LEN in L; destruct rest as [|y rest]; cbn [length] in L; try lia.
    - apply chk_ok. unfold INT_MIN, INT_MAX in *. lia.
    - replace (pre ++ x :: y :: rest) with ((pre ++ [x]) ++ y :: rest) by (rewrite <- app_assoc; reflexivity).
      replace (S (length pre)) with (length (pre ++ [x])) by (rewrite app_length; cbn; lia). apply aget_mid. }
  unfold cint in NM. rewrite NM. cbn [bind]. set (nmax := match rest with [] => ncand + 1 | y :: _ => y end).
  assert (NMR : 1 <= nmax <= INT_MAX).
  { unfold nmax. destruct rest as [|y rest]; [lia|]. inversion IR' as [|? ? Y ?]; subst. lia. }
  rewrite chk_ok by (unfold INT_MIN, INT_MAX in *; lia). cbn [bind].
  destruct (Z.ltb_spec 1 (nmax - x)) as [G|G].
  - rewrite chk_ok by (unfold INT_MIN, INT_MAX in *; lia). cbn [bind]. rewrite aset_mid. cbn [bind].
    pose proof (fill_up_spec (length pre) 0 [] pre (x + 1 :: rest) eq_refl eq_refl) as F. cbn [app] in F. rewrite F. reflexivity.
  - destruct (Nat.leb_spec (length (pre ++ x :: rest)) (S (length pre))) as [L|L].
    + rewrite LEN in L. destruct rest; [|cbn [length] in L; lia]. cbn [next]. rewrite fill_all by reflexivity. reflexivity.
    + replace (pre ++ x :: rest) with ((pre ++ [x]) ++ rest) by (rewrite <- app_assoc; reflexivity).
      replace (S (S (length pre))) with (S (length (pre ++ [x]))) by (rewrite app_length; cbn; lia).
      rewrite IH; [|assumption|assumption| |cbn in LF; lia].
      * replace (length (pre ++ [x])) with (S (length pre)) by (rewrite app_length; cbn; lia). reflexivity.
      * intros ->. rewrite LEN in L. cbn in L. lia.
Qed.

Lemma next_snoc l : forall i n top, next i (l ++ [n]) top =
  match next i l n with
  | Some l' => Some (l' ++ [n])
  | None => if 1 <? top - n then Some (run_of 1 (i + length l) ++ [n + 1]) else None
  end.
Proof.
  induction l as [|x l IH]; intros i n top.
  - cbn. rewrite Nat.add_0_r. destruct (1 <? top - n); reflexivity.
  - cbn [app next]. rewrite IH.
    assert (E : (match l ++ [n] with [] => top | y :: _ => y end) = match l with [] => n | y :: _ => y end) by (destruct l; reflexivity).
    rewrite E. destruct (1 <? _ - x).
    + f_equal. rewrite <- app_assoc. reflexivity.
    + cbn [length]. replace (S i + length l)%nat with (i + S (length l))%nat by lia. reflexivity.
Qed.

Lemma next_mono l : forall i t l', next i l t = Some l' -> next i l (t + 1) = Some l'.
Proof.
  induction l as [|x l IH]; intros i t l'; cbn [next]; [discriminate|]. destruct l as [|y l].
  - destruct (Z.ltb_spec 1 (t - x)); [|cbn; discriminate]. intros E. destruct (Z.ltb_spec 1 (t + 1 - x)); [exact E|lia].
  - destruct (1 <? y - x); [auto|]. apply IH.
Qed.
Lemma next_last l : forall i t, next i (l ++ [t - 1]) t = None -> next i (l ++ [t - 1]) (t + 1) = Some (run_of 1 (i + length l) ++ [t]).
Proof.
  intros i t. rewrite !next_snoc. destruct (next i l (t - 1)); [discriminate|]. intros _.
  destruct (Z.ltb_spec 1 (t + 1 - (t - 1))); [|lia]. do 3 f_equal. lia.
Qed.

(** Colexicographic enumeration of the k-subsets of 1..n. *)
Fixpoint combos (n k : nat) : list (list Z) :=
  match n, k with
  | _, O => [[]]
  | O, S _ => []
  | S m, S j => combos m k ++ map (fun l => l ++ [Z.of_nat n]) (combos m j)
  end.

(** [steps f x l y]: from x, f runs through the list l (each element the successor of the one before) and
    ends at y. *)
Fixpoint chain (f : list Z -> option (list Z)) (l : list (list Z)) : Prop :=
  match l with
  | [] => True
  | a :: r => match r with [] => True | b :: _ => f a = Some b end /\ chain f r
  end.
Lemma chain_app f l1 l2 : chain f l1 -> chain f l2 -> (forall a b, last l1 [] = a -> hd [] l2 = b -> l1 <> [] -> l2 <> [] -> f a = Some b) -> chain f (l1 ++ l2).
Proof.
  induction l1 as [|a l1 IH]; intros C1 C2 J; [exact C2|]. cbn [app chain]. destruct C1 as [C1 C1']. split.
  - destruct l1 as [|b l1]; cbn [app].
    + destruct l2 as [|b l2]; [exact Logic.I|]. apply J; [reflexivity|reflexivity|discriminate|discriminate].
    + exact C1.
  - apply IH; [assumption|assumption|]. intros x y L H N1 N2. apply J; [|assumption|discriminate|assumption].
    destruct l1; [congruence|exact L].
Qed.
Lemma chain_map f g h l : chain f l -> (forall a b, In a l -> f a = Some b -> g (h a) = Some (h b)) -> chain g (map h l).
Proof.
  induction l as [|a l IH]; intros C H; [exact Logic.I|]. cbn [map chain]. destruct C as [C1 C2]. split.
  - destruct l as [|b l]; [exact Logic.I|]. cbn [map]. apply H; [left; reflexivity|exact C1].
  - apply IH; [exact C2|]. intros; apply H; [right; assumption|assumption].
Qed.
Lemma chain_impl f g l : chain f l -> (forall a b, In a l -> f a = Some b -> g a = Some b) -> chain g l.
Proof. intros C H. rewrite <- (map_id l). apply (chain_map f); assumption. Qed.
Lemma chain_nth f l : chain f l -> forall i, (S i < length l)%nat -> f (nth i l []) = Some (nth (S i) l []).
Proof.
  induction l as [|a l IH]; intros C i L; [cbn in L; lia|]. destruct C as [C1 C2]. destruct i.
  - destruct l as [|b l]; [cbn in L; lia|]. exact C1.
  - cbn [nth]. apply IH; [assumption|cbn in L; lia].
Qed.

Lemma last_app_ne {A} (l1 l2 : list A) d : l2 <> [] -> last (l1 ++ l2) d = last l2 d.
Proof.
  intros N. induction l1 as [|a l1 IH]; [reflexivity|]. cbn [app]. destruct (l1 ++ l2) eqn:E.
  - apply app_eq_nil in E. tauto.
  - cbn [last]. exact IH.
Qed.
Lemma last_map {A B} (f : A -> B) l d d' : l <> [] -> last (map f l) d' = f (last l d).
Proof.
  induction l as [|a l IH]; intros N; [congruence|]. destruct l as [|b l]; [reflexivity|]. cbn [map last]. apply IH. discriminate.
Qed.

Lemma combos_big n : forall k, (n < k)%nat -> combos n k = [].
Proof.
  induction n as [|n IH]; intros [|k] H; try lia; [reflexivity|]. cbn [combos]. rewrite !IH by lia. reflexivity.
Qed.
Lemma combos_ne n : forall k, (k <= n)%nat -> combos n k <> [].
Proof.
  induction n as [|n IH]; intros [|k] H; try discriminate; try lia. cbn [combos]. intros E. apply app_eq_nil in E. destruct E as [_ E].
  apply map_eq_nil in E. revert E. apply IH. lia.
Qed.
Lemma combos_hd n : forall k, (k <= n)%nat -> hd [] (combos n k) = run_of 1 k.
Proof.
  induction n as [|n IH]; intros [|k] H; try reflexivity; try lia. cbn [combos].
  destruct (Nat.eq_dec n k) as [->|NE].
  - rewrite combos_big by lia. cbn [app]. destruct (combos k k) as [|l r] eqn:E; [exfalso; revert E; apply combos_ne; lia|].
    cbn [map hd]. pose proof (IH k ltac:(lia)) as HH. rewrite E in HH. cbn [hd] in HH. rewrite HH, run_of_snoc. do 2 f_equal. lia.
  - pose proof (IH (S k) ltac:(lia)) as HH. destruct (combos n (S k)) as [|l r] eqn:E; [exfalso; revert E; apply combos_ne; lia|]. exact HH.
Qed.
Lemma combos_last n : forall k, (k <= n)%nat -> last (combos n k) [] = run_of (Z.of_nat n - Z.of_nat k + 1) k.
Proof.
  induction n as [|n IH]; intros [|k] H; try reflexivity; try lia. cbn [combos].
  pose proof (combos_ne n k ltac:(lia)) as NE.
  rewrite last_app_ne by (intros E; apply map_eq_nil in E; tauto).
  rewrite (last_map _ _ []) by assumption. rewrite IH by lia. rewrite run_of_snoc. f_equal; [f_equal; lia|]. f_equal. lia.
Qed.
Lemma run_next i lo k : next i (run_of lo k) (lo + Z.of_nat k) = None.
Proof.
  revert i lo. induction k as [|k IH]; intros i lo; [reflexivity|]. rewrite run_of_S. cbn [next].
  destruct k as [|k].
  - cbn [run_of seq map]. destruct (Z.ltb_spec 1 (lo + Z.of_nat 1 - lo)); [lia|reflexivity].
  - rewrite run_of_S. cbn beta iota. destruct (Z.ltb_spec 1 (lo + 1 - lo)); [lia|]. rewrite <- run_of_S.
    replace (lo + Z.of_nat (S (S k))) with (lo + 1 + Z.of_nat (S k)) by lia. apply IH.
Qed.

Lemma combos_props n : forall k l, In l (combos n k) -> length l = k /\ StronglySorted Z.lt l /\ Forall (fun x => 1 <= x <= Z.of_nat n) l.
Proof.
  induction n as [|n IH]; intros [|k] l I; cbn [combos] in I.
  - destruct I as [<-|[]]. repeat split; constructor.
  - destruct I.
  - destruct I as [<-|[]]. repeat split; constructor.
  - apply in_app_iff in I. destruct I as [I|I].
    + apply IH in I. destruct I as (L & S1 & F). repeat split; try assumption. eapply Forall_impl; [|exact F]. cbn; intros; lia.
    + apply in_map_iff in I. destruct I as (l' & <- & I). apply IH in I. destruct I as (L & S1 & F). repeat split.
      * rewrite app_length. cbn. lia.
      * clear L. induction l' as [|x l' IHl]; [constructor; constructor|]. cbn [app]. inversion S1; inversion F; subst. constructor; [apply IHl; assumption|].
        apply Forall_app. split; [assumption|]. constructor; [lia|constructor].
      * apply Forall_app. split; [eapply Forall_impl; [|exact F]; cbn; intros; lia|]. constructor; [lia|constructor].
Qed.
Lemma sorted_app_inv (l : list Z) n : StronglySorted Z.lt (l ++ [n]) -> StronglySorted Z.lt l /\ Forall (fun x => x < n) l.
Proof.
  induction l as [|x l IH]; intros H; [split; constructor|]. cbn [app] in H. inversion H as [|? ? H1 H2]; subst. destruct (IH H1) as [A B].
  apply Forall_app in H2. destruct H2 as [H2 H3]. inversion H3; subst. split; constructor; assumption.
Qed.
Lemma combos_all n : forall k l, length l = k -> StronglySorted Z.lt l -> Forall (fun x => 1 <= x <= Z.of_nat n) l -> In l (combos n k).
Proof.
  induction n as [|n IH]; intros k l L S1 F.
  - destruct l as [|x l]; [subst k; left; reflexivity|]. inversion F; subst. lia.
  - destruct k as [|k]; [destruct l; [left; reflexivity|discriminate]|].
    assert (l <> []) as NE by (intros ->; discriminate). destruct (exists_last NE) as (l' & x & ->). destruct (sorted_app_inv l' x S1) as [S2 F2].
    apply Forall_app in F. destruct F as [F3 F4]. inversion F4 as [|? ? X _]; subst. rewrite app_length in L; cbn in L.
    cbn [combos]. apply in_app_iff. destruct (Z.eq_dec x (Z.of_nat (S n))) as [E|E].
    + right. apply in_map_iff. exists l'. split; [rewrite E; reflexivity|]. apply IH; [lia|assumption|].
      apply Forall_forall. intros y Y. rewrite Forall_forall in F2, F3. specialize (F2 y Y). specialize (F3 y Y). cbn in F3. lia.
    + left. apply IH; [rewrite app_length; cbn; lia|assumption|]. apply Forall_app. split.
      * apply Forall_forall. intros y Y. rewrite Forall_forall in F2, F3. specialize (F2 y Y). specialize (F3 y Y). cbn in F3. lia.
      * constructor; [lia|constructor].
Qed.
Lemma NoDup_app' {A} (l1 l2 : list A) : NoDup l1 -> NoDup l2 -> (forall x, In x l1 -> In x l2 -> False) -> NoDup (l1 ++ l2).
Proof.
  induction l1 as [|a l1 IH]; intros N1 N2 D; [exact N2|]. inversion N1; subst. cbn. constructor.
  - rewrite in_app_iff. intros [I|I]; [contradiction|]. apply (D a); [left; reflexivity|assumption].
  - apply IH; [assumption|assumption|]. intros x X Y. apply (D x); [right; assumption|assumption].
Qed.
Lemma NoDup_map' {A B} (f : A -> B) l : (forall x y, In x l -> In y l -> f x = f y -> x = y) -> NoDup l -> NoDup (map f l).
Proof.
  induction l as [|a l IH]; intros J N; [constructor|]. inversion N; subst. cbn. constructor.
  - intros I. apply in_map_iff in I. destruct I as (y & E & Y). assert (y = a) by (apply J; [right; assumption|left; reflexivity|assumption]). subst. contradiction.
  - apply IH; [|assumption]. intros; apply J; try (right; assumption); assumption.
Qed.
Lemma combos_nodup n : forall k, NoDup (combos n k).
Proof.
  induction n as [|n IH]; intros [|k]; cbn [combos]; try (repeat constructor; intros []; fail).
  apply NoDup_app'; [apply IH|apply NoDup_map'; [|apply IH]|].
  - intros x y _ _ E. apply app_inj_tail in E. tauto.
  - intros l I1 I2. apply in_map_iff in I2. destruct I2 as (l' & <- & _). apply combos_props in I1. destruct I1 as (_ & _ & F).
    apply Forall_app in F. destruct F as [_ F]. inversion F; subst. lia.
Qed.
Lemma combos_length n : forall k, length (combos n k) = binom n k.
Proof.
  induction n as [|n IH]; intros [|k]; cbn [combos binom]; try reflexivity. rewrite app_length, map_length, !IH. lia.
Qed.
Lemma combos_chain n : forall k, chain (fun l => next 0 l (Z.of_nat n + 1)) (combos n k).
Proof.
  induction n as [|n IH]; intros [|k]; try (cbn; tauto). cbn [combos].
  apply chain_app.
  - eapply chain_impl; [apply IH|]. intros a b _ E. cbn beta in *. replace (Z.of_nat (S n) + 1) with (Z.of_nat n + 1 + 1) by lia. apply next_mono. exact E.
  - eapply chain_map; [apply (IH k)|]. intros a b _ E. cbn beta in *. rewrite next_snoc. replace (Z.of_nat (S n)) with (Z.of_nat n + 1) at 1 by lia. rewrite E. reflexivity.
  - intros a b L H N1 N2.
    assert (KN : (S k <= n)%nat). { destruct (Nat.le_gt_cases (S k) n) as [K|K]; [exact K|]. exfalso. apply N1. apply combos_big. lia. }
    rewrite combos_last in L by exact KN.
    assert (HB : b = run_of 1 k ++ [Z.of_nat (S n)]).
    { subst b. destruct (combos n k) as [|l r] eqn:E; [cbn in N2; congruence|]. cbn [map hd]. pose proof (combos_hd n k ltac:(lia)) as HH. rewrite E in HH. cbn [hd] in HH. rewrite HH. reflexivity. }
    subst a b. rewrite HB. rewrite run_of_snoc.
    replace (Z.of_nat n - Z.of_nat (S k) + 1 + Z.of_nat k) with (Z.of_nat (S n) - 1) by lia.
    rewrite next_last.
    + cbn [Nat.add]. rewrite run_of_length. replace (Z.of_nat (S n) - 1 + 1) with (Z.of_nat (S n)) by lia. reflexivity.
    + replace (Z.of_nat (S n) - 1) with (Z.of_nat n - Z.of_nat (S k) + 1 + Z.of_nat k) by lia. rewrite <- run_of_snoc.
      replace (Z.of_nat (S n)) with (Z.of_nat n - Z.of_nat (S k) + 1 + Z.of_nat (S k)) by lia. apply run_next.
Qed.

(** One call on a combination. *)
Lemma combn_step nsel ncand l : combination nsel ncand l -> 1 <= nsel <= ncand -> ncand < INT_MAX ->
  combn nsel ncand l = match next 0 l (ncand + 1) with Some l' => Some (CPS_OK, l') | None => Some (CPS_NO_MORE, run_of 1 (Z.to_nat nsel)) end.
Proof.
  intros (L & S1 & F) NS NC. unfold combn.
  destruct (Z.ltb_spec nsel 1); [lia|]. destruct (Z.ltb_spec ncand 1); [lia|]. destruct (Z.gtb_spec nsel ncand); [lia|]. cbn [orb].
  destruct l as [|x l]; [cbn in L; lia|]. cbn [aget nth_error bind]. inversion F; subst.
  destruct (Z.ltb_spec x 1); [lia|]. pose proof (combn_from_spec (length (x :: l)) [] (x :: l) ncand) as SP. cbn [app length] in SP.
  rewrite Nat2Z.id. cbn [length]. apply SP; [|lia|discriminate|reflexivity].
  eapply Forall_impl; [|exact F]. cbv beta; intros; lia.
Qed.
Lemma combn_start nsel ncand l : Z.of_nat (length l) = nsel -> hd 1 l < 1 -> 1 <= nsel <= ncand ->
  combn nsel ncand l = Some (CPS_OK, run_of 1 (Z.to_nat nsel)).
Proof.
  intros L H NS. unfold combn.
  destruct (Z.ltb_spec nsel 1); [lia|]. destruct (Z.ltb_spec ncand 1); [lia|]. destruct (Z.gtb_spec nsel ncand); [lia|]. cbn [orb].
  destruct l as [|x l]; [cbn in L; lia|]. cbn [aget nth_error bind]. cbn [hd] in H.
  destruct (Z.ltb_spec x 1); [|lia]. rewrite fill_all by lia. reflexivity.
Qed.

Lemma last_nth_len {A} (l : list A) d : last l d = nth (length l - 1) l d.
Proof.
  induction l as [|a l IH]; [reflexivity|]. destruct l as [|b l]; [reflexivity|]. change (last (a :: b :: l) d) with (last (b :: l) d). rewrite IH. cbn [length]. replace (S (S (length l)) - 1)%nat with (S (S (length l) - 1)) by lia. reflexivity.
Qed.

Lemma mod_S_cases T k : (0 < T)%nat -> (S k mod T = if S (k mod T) =? T then 0 else S (k mod T))%nat.
Proof.
  intros P. pose proof (Nat.mod_upper_bound k T ltac:(lia)) as B. pose proof (Nat.div_mod k T ltac:(lia)) as D.
  destruct (Nat.eqb_spec (S (k mod T)) T) as [E|E].
  - symmetry. apply (Nat.mod_unique _ _ (S (k / T))); [lia|]. nia.
  - symmetry. apply (Nat.mod_unique _ _ (k / T)); [lia|]. nia.
Qed.

Theorem combn_enumerates nsel ncand start : 1 <= nsel <= ncand -> ncand < INT_MAX -> Z.of_nat (length start) = nsel -> hd 1 start < 1 ->
  exists enum, lists_once (combination nsel ncand) enum /\
    length enum = binom (Z.to_nat ncand) (Z.to_nat nsel) /\
    hd [] enum = run_of 1 (Z.to_nat nsel) /\ last enum [] = run_of (ncand - nsel + 1) (Z.to_nat nsel) /\
    forall k, combn_call nsel ncand k start = Some (cycle_status (length enum) k, nth (k mod length enum) enum []).
Proof.
  intros NS NC L H. exists (combos (Z.to_nat ncand) (Z.to_nat nsel)). set (enum := combos _ _).
  assert (ONCE : lists_once (combination nsel ncand) enum).
  { split; [apply combos_nodup|]. intros l. split.
    - intros I. apply combos_props in I. destruct I as (A & B & C). repeat split; [lia|assumption|]. rewrite Z2Nat.id in C by lia. exact C.
    - intros (A & B & C). apply combos_all; [lia|assumption|]. rewrite Z2Nat.id by lia. exact C. }
  assert (HD : hd [] enum = run_of 1 (Z.to_nat nsel)) by (apply combos_hd; lia).
  assert (LA : last enum [] = run_of (ncand - nsel + 1) (Z.to_nat nsel)).
  { unfold enum. rewrite combos_last by lia. f_equal. lia. }
  split; [exact ONCE|]. split; [apply combos_length|]. split; [exact HD|]. split; [exact LA|].
  assert (T0 : (0 < length enum)%nat). { pose proof (combos_ne (Z.to_nat ncand) (Z.to_nat nsel) ltac:(lia)) as NE. fold enum in NE. destruct enum; [congruence|cbn; lia]. }
  assert (H0 : nth 0 enum [] = run_of 1 (Z.to_nat nsel)) by (rewrite <- HD; destruct enum; reflexivity).
  induction k as [|k IH].
  - cbn [combn_call]. rewrite combn_start by assumption. rewrite Nat.mod_0_l by lia. rewrite H0. reflexivity.
  - cbn [combn_call]. rewrite IH. pose proof (Nat.mod_upper_bound k (length enum) ltac:(lia)) as MB. set (i := (k mod length enum)%nat) in *.
    assert (CB : combination nsel ncand (nth i enum [])) by (apply ONCE; apply nth_In; exact MB).
    rewrite combn_step by assumption. unfold cycle_status. cbn [Nat.eqb orb]. rewrite mod_S_cases by exact T0. fold i.
    destruct (Nat.eqb_spec (S i) (length enum)) as [E|E].
    + assert (nth i enum [] = last enum []) as -> by (rewrite last_nth_len; f_equal; lia). rewrite LA.
      replace (ncand + 1) with (ncand - nsel + 1 + Z.of_nat (Z.to_nat nsel)) by lia. rewrite run_next. rewrite H0. reflexivity.
    + pose proof (chain_nth _ _ (combos_chain (Z.to_nat ncand) (Z.to_nat nsel)) i) as CN. fold enum in CN. cbn beta in CN.
      rewrite Z2Nat.id in CN by lia. rewrite CN by lia. reflexivity.
Qed.

(** Invalid arguments leave the array alone. *)
Lemma combn_invalid nsel ncand l : combn nsel ncand l = Some (CPS_INVALID_ARG, l) <-> ~ 1 <= nsel <= ncand.
Proof.
  unfold combn. destruct (Z.ltb_spec nsel 1); cbn [orb]; [split; [lia|reflexivity]|].
  destruct (Z.ltb_spec ncand 1); cbn [orb]; [split; [lia|reflexivity]|].
  destruct (Z.gtb_spec nsel ncand); cbn [orb]; [split; [lia|reflexivity]|]. split; [|lia].
  assert (F : forall fuel i a r, combn_from fuel (Z.to_nat nsel) i ncand a = Some r -> fst r <> CPS_INVALID_ARG).
  { induction fuel as [|fuel IH]; intros i a r; cbn [combn_from]; [discriminate|].
    unfold bind. intros E. repeat match type of E with
      | (match ?x with Some _ => _ | None => None end) = _ => destruct x; [|discriminate E]
      | (if ?x then _ else _) = _ => destruct x end; try (inversion E; subst; discriminate). exact (IH _ _ _ E). }
  unfold bind. destruct (aget l 0); [|discriminate]. destruct (_ <? 1).
  - destruct (fill_up _ _ _); [|discriminate]. intros E. inversion E.
  - intros E. apply F in E. cbn in E. congruence.
Qed.

(** ** permut *)

(** Digits of the state number [k] in the mixed radix 1, 2, ..., n. *)
Fixpoint digits (n k : nat) : list Z :=
  match n with
  | O => []
  | S m => digits m (k mod fact m) ++ [Z.of_nat (k / fact m)]
  end.
Lemma digits_length n : forall k, length (digits n k) = n.
Proof. induction n; intros; cbn [digits]; [reflexivity|]. rewrite app_length, IHn. cbn. lia. Qed.

(** Ripple carry: add [c] to the digit with radix [j]. *)
Fixpoint ripple (j : nat) (c : Z) (s : list Z) : list Z * Z :=
  match s with
  | [] => ([], c)
  | x :: r => if x + c >=? Z.of_nat j then let '(r', c') := ripple (S j) 1 r in (0 :: r', c')
              else let '(r', c') := ripple (S j) 0 r in (x + c :: r', c')
  end.
Lemma ripple_snoc s : forall j c d, ripple j c (s ++ [d]) =
  let '(s', c') := ripple j c s in
  if d + c' >=? Z.of_nat (j + length s) then (s' ++ [0], 1) else (s' ++ [d + c'], 0).
Proof.
  induction s as [|x s IH]; intros j c d.
  - cbn [app ripple length]. rewrite Nat.add_0_r. destruct (_ >=? _); reflexivity.
  - cbn [app ripple length]. rewrite !IH. replace (S j + length s)%nat with (j + S (length s))%nat by lia.
    destruct (x + c >=? Z.of_nat j).
    + destruct (ripple (S j) 1 s) as [s' c']. destruct (_ >=? _); reflexivity.
    + destruct (ripple (S j) 0 s) as [s' c']. destruct (_ >=? _); reflexivity.
Qed.

Lemma fact_S n : (fact (S n) = fact n + n * fact n)%nat. Proof. reflexivity. Qed.
Lemma ripple_zero n : forall k, (k < fact n)%nat -> ripple 1 0 (digits n k) = (digits n k, 0).
Proof.
  induction n as [|n IH]; intros k K; [reflexivity|]. cbn [digits]. rewrite ripple_snoc, digits_length.
  pose proof (lt_O_fact n) as F. rewrite fact_S in K.
  assert (Q : (k / fact n < S n)%nat) by (apply Nat.div_lt_upper_bound; nia).
  rewrite IH by (apply Nat.mod_upper_bound; lia). destruct (Z.geb_spec (Z.of_nat (k / fact n) + 0) (Z.of_nat (1 + n))); [lia|].
  rewrite Z.add_0_r. reflexivity.
Qed.
Lemma ripple_one n : forall k, (k < fact n)%nat ->
  ripple 1 1 (digits n k) = if (S k =? fact n)%nat then (digits n 0, 1) else (digits n (S k), 0).
Proof.
  induction n as [|n IH]; intros k K; [cbn in K; replace k with 0%nat by lia; reflexivity|].
  cbn [digits]. rewrite ripple_snoc, digits_length. pose proof (lt_O_fact n) as F.
  pose proof (Nat.mod_upper_bound k (fact n) ltac:(lia)) as MB. pose proof (Nat.div_mod k (fact n) ltac:(lia)) as DM.
  rewrite fact_S in K |- *.
  assert (Q : (k / fact n < S n)%nat) by (apply Nat.div_lt_upper_bound; nia).
  rewrite IH by exact MB. set (m := (k mod fact n)%nat) in *. set (q := (k / fact n)%nat) in *.
  rewrite Nat.mod_0_l, Nat.div_0_l by lia.
  destruct (Nat.eqb_spec (S m) (fact n)) as [E|E].
  - destruct (Nat.eq_dec q n) as [QN|QN].
    + destruct (Z.geb_spec (Z.of_nat q + 1) (Z.of_nat (1 + n))); [|lia]. destruct (Nat.eqb_spec (S k) (fact n + n * fact n)); [reflexivity|nia].
    + destruct (Z.geb_spec (Z.of_nat q + 1) (Z.of_nat (1 + n))); [lia|]. destruct (Nat.eqb_spec (S k) (fact n + n * fact n)); [nia|].
      assert (S k mod fact n = 0 /\ S k / fact n = S q)%nat as [-> ->].
      { split; symmetry; [apply (Nat.mod_unique _ _ (S q))|apply (Nat.div_unique _ _ _ 0)]; nia. }
      do 3 f_equal. lia.
  - destruct (Z.geb_spec (Z.of_nat q + 0) (Z.of_nat (1 + n))); [lia|]. destruct (Nat.eqb_spec (S k) (fact n + n * fact n)); [nia|].
    assert (S k mod fact n = S m /\ S k / fact n = q)%nat as [-> ->].
    { split; symmetry; [apply (Nat.mod_unique _ _ q)|apply (Nat.div_unique _ _ _ (S m))]; nia. }
    rewrite Z.add_0_r. reflexivity.
Qed.

(** The source's in-place carry loop is the ripple.  The carry into the next
    digit has been added already. *)
Definition addhd (c : Z) (l : list Z) : list Z := match l with [] => [] | x :: r => x + c :: r end.
Lemma carry_from_spec r : forall pre c st n, Z.of_nat (length pre + length r) = n -> n <= INT_MAX -> (c = 0 \/ c = 1) ->
  Forall (fun x => 0 <= x < INT_MAX) r -> r <> [] ->
  carry_from (length r) (S (length pre)) n st (pre ++ addhd c r) =
  let '(r', c') := ripple (S (length pre)) c r in
  Some (if c' =? 0 then st else CPS_NO_MORE, pre ++ r').
Proof.
  induction r as [|x r IH]; intros pre c st n LN LM C F NE; [congruence|]. inversion F as [|? ? X F']; subst x0 l.
  cbn [length carry_from addhd ripple]. replace (S (length pre) - 1)%nat with (length pre) by lia.
  rewrite aget_mid. cbn [bind]. cbn [length] in LN.
  assert (P1 : forall v, length (pre ++ [v]) = S (length pre)) by (intros; rewrite app_length; cbn; lia).
  destruct (Z.geb_spec (x + c) (Z.of_nat (S (length pre)))) as [G|G].
  - rewrite aset_mid. cbn [bind]. destruct r as [|y r].
    + cbn [ripple length carry_from]. destruct (Z.geb_spec (Z.of_nat (S (length pre))) n); [|cbn in LN; lia]. reflexivity.
    + destruct (Z.geb_spec (Z.of_nat (S (length pre))) n); [cbn [length] in LN; lia|].
      inversion F' as [|? ? Y F'']; subst x0 l. clear H.
      replace (pre ++ 0 :: y :: r) with ((pre ++ [0]) ++ y :: r) by (rewrite <- app_assoc; reflexivity).
      rewrite <- (P1 0). rewrite aget_mid. cbn [bind]. rewrite chk_ok by (unfold INT_MIN in *; lia). cbn [bind]. rewrite aset_mid. cbn [bind].
      rewrite (P1 0). rewrite <- (P1 0).
      change (y + 1 :: r) with (addhd 1 (y :: r)). rewrite IH; [|rewrite P1; cbn [length] in *; lia|assumption|tauto|assumption|discriminate].
      rewrite P1. destruct (ripple (S (S (length pre))) 1 (y :: r)) as [r' c']. rewrite <- app_assoc. reflexivity.
  - destruct r as [|y r].
    + reflexivity.
    + replace (pre ++ x + c :: y :: r) with ((pre ++ [x + c]) ++ addhd 0 (y :: r)) by (rewrite <- app_assoc; cbn [app addhd]; rewrite Z.add_0_r; reflexivity).
      rewrite <- (P1 (x + c)). rewrite IH; [|rewrite P1; cbn [length] in *; lia|assumption|tauto|assumption|discriminate].
      rewrite P1. destruct (ripple (S (S (length pre))) 0 (y :: r)) as [r' c']. rewrite <- app_assoc. reflexivity.
Qed.

Lemma zero_from_spec n : forall pre r, length r = n -> zero_from n (length pre) (pre ++ r) = Some (pre ++ repeat 0 n).
Proof.
  induction n as [|n IH]; intros pre r L; [destruct r; [reflexivity|discriminate]|]. destruct r as [|x r]; [discriminate|].
  cbn [zero_from]. rewrite aset_mid. cbn [bind]. replace (pre ++ 0 :: r) with ((pre ++ [0]) ++ r) by (rewrite <- app_assoc; reflexivity).
  replace (S (length pre)) with (length (pre ++ [0])) by (rewrite app_length; cbn; lia). rewrite IH by (cbn in L; lia). rewrite <- app_assoc. reflexivity.
Qed.
Lemma ones_from_spec n : forall pre r, length r = n -> ones_from n (length pre) (pre ++ r) = Some (pre ++ repeat 1 n).
Proof.
  induction n as [|n IH]; intros pre r L; [destruct r; [reflexivity|discriminate]|]. destruct r as [|x r]; [discriminate|].
  cbn [ones_from]. rewrite aset_mid. cbn [bind]. replace (pre ++ 1 :: r) with ((pre ++ [1]) ++ r) by (rewrite <- app_assoc; reflexivity).
  replace (S (length pre)) with (length (pre ++ [1])) by (rewrite app_length; cbn; lia). rewrite IH by (cbn in L; lia). rewrite <- app_assoc. reflexivity.
Qed.

(** Decoding: insert [n] at position d_(n-1) of the permutation of 1..n-1. *)
Fixpoint insert_at (d : nat) (v : Z) (l : list Z) : list Z :=
  match d, l with
  | O, _ => v :: l
  | S d, x :: l => x :: insert_at d v l
  | S _, [] => [v]
  end.
Fixpoint perm (n k : nat) : list Z :=
  match n with
  | O => []
  | S m => insert_at (k / fact m) (Z.of_nat n) (perm m (k mod fact m))
  end.

(** Replace the 1s of [o], in order, by the members of [p]. *)
Fixpoint subst (o p : list Z) : list Z :=
  match o with
  | [] => []
  | x :: o => if x =? 1 then match p with [] => x :: o | y :: p => y :: subst o p end else x :: subst o p
  end.
(** Put [v] in place of the [d]-th 1 of [o]. *)
Fixpoint put (o : list Z) (d : nat) (v : Z) : list Z :=
  match o with
  | [] => []
  | x :: o => if x =? 1 then match d with O => v :: o | S d => x :: put o d v end else x :: put o d v
  end.
Definition ones (o : list Z) : nat := count_occ Z.eq_dec o 1.

Lemma put_ones o : forall d v, v <> 1 -> (d < ones o)%nat -> S (ones (put o d v)) = ones o.
Proof.
  unfold ones. induction o as [|x o IH]; intros d v V D; [cbn in D; lia|]. cbn [put count_occ] in *.
  destruct (Z.eqb_spec x 1) as [->|X].
  - destruct (Z.eq_dec 1 1) in D |- *; [|congruence]. destruct d.
    + cbn [count_occ]. destruct (Z.eq_dec v 1); [congruence|reflexivity].
    + cbn [count_occ]. destruct (Z.eq_dec 1 1); [|congruence]. rewrite IH by (assumption || lia). reflexivity.
  - destruct (Z.eq_dec x 1) in D |- *; [congruence|]. cbn [count_occ]. destruct (Z.eq_dec x 1); [congruence|]. apply IH; assumption.
Qed.
Lemma subst_put o : forall d v p, v <> 1 -> (d < ones o)%nat -> S (length p) = ones o ->
  subst (put o d v) p = subst o (insert_at d v p).
Proof.
  unfold ones. induction o as [|x o IH]; intros d v p V D L; [cbn in D; lia|]. cbn [put subst count_occ] in *.
  destruct (Z.eqb_spec x 1) as [->|X].
  - destruct (Z.eq_dec 1 1) in D, L |- *; try congruence. destruct d.
    + cbn [insert_at subst]. destruct (Z.eqb_spec v 1); [congruence|reflexivity].
    + destruct p as [|y p]; [cbn in L; lia|]. cbn [insert_at subst]. cbn. f_equal. apply IH; [assumption|lia|cbn in L; lia].
  - destruct (Z.eq_dec x 1) in D, L |- *; try congruence. cbn [subst]. destruct (Z.eqb_spec x 1); [congruence|]. f_equal. apply IH; assumption.
Qed.
Lemma subst_one o : ones o = 1%nat -> subst o [1] = o.
Proof.
  unfold ones. induction o as [|x o IH]; [reflexivity|]. cbn [count_occ subst]. destruct (Z.eqb_spec x 1) as [->|X].
  - destruct (Z.eq_dec 1 1); [|congruence]. intros E. f_equal. clear IH. revert E. generalize (@nil Z).
    intros l E. induction o as [|y o IH]; [reflexivity|]. cbn [count_occ] in E. destruct (Z.eq_dec y 1); [lia|]. cbn [subst]. destruct (Z.eqb_spec y 1); [congruence|].
    f_equal. apply IH. exact E.
  - destruct (Z.eq_dec x 1); [congruence|]. intros E. f_equal. apply IH. exact E.
Qed.
Lemma subst_ones p : subst (repeat 1 (length p)) p = p.
Proof. induction p as [|x p IH]; [reflexivity|]. cbn. f_equal. exact IH. Qed.
Lemma insert_at_length d v : forall l, length (insert_at d v l) = S (length l).
Proof. revert v. induction d; intros v [|x l]; cbn; try reflexivity. f_equal. apply IHd. Qed.
Lemma perm_length n : forall k, length (perm n k) = n.
Proof. induction n; intros; [reflexivity|]. cbn [perm]. rewrite insert_at_length, IHn. reflexivity. Qed.

(** The slot search: position (1-based) of the [d]-th 1, counting from the
    slots after [length pre]. *)
Lemma skip_used_spec : forall mid fuel pre post, Forall (fun x => 1 < x) mid -> (length mid < fuel)%nat ->
  skip_used fuel (S (length pre)) (pre ++ mid ++ 1 :: post) = Some (S (length pre + length mid)).
Proof.
  induction mid as [|x mid IH]; intros fuel pre post F L; (destruct fuel; [cbn in L; lia|]); cbn [skip_used].
  - replace (S (length pre) - 1)%nat with (length pre) by lia. cbn [app]. rewrite aget_mid. cbn. rewrite Nat.add_0_r. reflexivity.
  - inversion F; subst. replace (S (length pre) - 1)%nat with (length pre) by lia. cbn [app]. rewrite aget_mid. cbn [bind].
    destruct (Z.gtb_spec x 1); [|lia]. replace (pre ++ x :: mid ++ 1 :: post) with ((pre ++ [x]) ++ mid ++ 1 :: post) by (rewrite <- app_assoc; reflexivity).
    replace (S (S (length pre))) with (S (length (pre ++ [x]))) by (rewrite app_length; cbn; lia). rewrite IH by (assumption || (cbn in L; lia)).
    rewrite app_length. cbn. f_equal. lia.
Qed.
Lemma first_one o : Forall (fun x => 1 <= x) o -> (0 < ones o)%nat -> exists mid post, o = mid ++ 1 :: post /\ Forall (fun x => 1 < x) mid.
Proof.
  unfold ones. induction o as [|x o IH]; intros F C; [cbn in C; lia|]. inversion F; subst. cbn [count_occ] in C.
  destruct (Z.eq_dec x 1) as [->|X].
  - exists [], o. split; [reflexivity|constructor].
  - destruct (IH ltac:(assumption) C) as (mid & post & -> & M). exists (x :: mid), post. split; [reflexivity|]. constructor; [lia|assumption].
Qed.
Lemma put_mid mid post v : Forall (fun x => 1 < x) mid -> forall d, put (mid ++ 1 :: post) d v =
  match d with O => mid ++ v :: post | S d => mid ++ 1 :: put post d v end.
Proof.
  induction mid as [|x mid IH]; intros F d; [destruct d; reflexivity|]. inversion F; subst. cbn [app put].
  destruct (Z.eqb_spec x 1); [lia|]. rewrite IH by assumption. destruct d; reflexivity.
Qed.
Lemma ones_mid mid post : Forall (fun x => 1 < x) mid -> ones (mid ++ 1 :: post) = S (ones post).
Proof.
  unfold ones. induction mid as [|x mid IH]; intros F; [reflexivity|]. inversion F; subst. cbn [app count_occ].
  destruct (Z.eq_dec x 1); [lia|]. apply IH. assumption.
Qed.
Lemma find_slot_spec d : forall pre o v, Forall (fun x => 1 <= x) o -> (d < ones o)%nat ->
  exists slot, find_slot (S d) (length pre) (pre ++ o) = Some (S slot) /\ aset (pre ++ o) slot v = Some (pre ++ put o d v).
Proof.
  induction d as [|d IH]; intros pre o v F D; destruct (first_one o F ltac:(lia)) as (mid & post & -> & M).
  - exists (length (pre ++ mid)). split.
    + cbn [find_slot]. rewrite skip_used_spec; [|assumption|rewrite !app_length; cbn; lia]. cbn [bind]. rewrite app_length. reflexivity.
    + rewrite put_mid by assumption. rewrite !app_assoc. apply aset_mid.
  - rewrite ones_mid in D by assumption.
    destruct (IH (pre ++ mid ++ [1]) post v) as (slot & S1 & S2).
    + apply Forall_app in F. destruct F as [_ F]. inversion F; assumption.
    + lia.
    + assert (E : pre ++ mid ++ 1 :: post = (pre ++ mid ++ [1]) ++ post) by (rewrite <- !app_assoc; reflexivity).
      exists slot. split.
      * change (find_slot (S (S d)) (length pre) (pre ++ mid ++ 1 :: post)) with
          (bind (skip_used (S (length (pre ++ mid ++ 1 :: post))) (S (length pre)) (pre ++ mid ++ 1 :: post)) (fun slot => find_slot (S d) slot (pre ++ mid ++ 1 :: post))).
        rewrite skip_used_spec; [|assumption|rewrite !app_length; cbn; lia]. cbn [bind].
        replace (S (length pre + length mid)) with (length (pre ++ mid ++ [1])) by (rewrite !app_length; cbn; lia). rewrite E. exact S1.
      * rewrite E, S2. rewrite put_mid by assumption. rewrite <- !app_assoc. reflexivity.
Qed.
Lemma put_ge o : forall d v, 1 <= v -> Forall (fun x => 1 <= x) o -> Forall (fun x => 1 <= x) (put o d v).
Proof.
  induction o as [|x o IH]; intros d v V F; [constructor|]. inversion F; subst. cbn [put]. destruct (x =? 1); [destruct d|]; constructor; auto.
Qed.

Lemma place_from_spec l : forall k hi o, (1 <= l)%nat -> (k < fact l)%nat -> Forall (fun x => 1 <= x) o -> ones o = l ->
  place_from l (digits l k ++ hi) o = Some (subst o (perm l k)).
Proof.
  induction l as [|l IH]; intros k hi o L K F C; [lia|]. destruct l as [|l].
  - cbn [place_from]. rewrite <- (subst_one o C) at 1. cbn in K. replace k with 0%nat by lia. reflexivity.
  - change (place_from (S (S l)) (digits (S (S l)) k ++ hi) o) with
      (do d <- aget (digits (S (S l)) k ++ hi) (S (S l) - 1); if d <? 0 then None else
       do slot <- find_slot (Z.to_nat (d + 1)) 0 o; do o2 <- aset o (slot - 1) (Z.of_nat (S (S l))); place_from (S l) (digits (S (S l)) k ++ hi) o2).
    assert (DG : digits (S (S l)) k ++ hi = digits (S l) (k mod fact (S l)) ++ Z.of_nat (k / fact (S l)) :: hi).
    { change (digits (S (S l)) k) with (digits (S l) (k mod fact (S l)) ++ [Z.of_nat (k / fact (S l))]). rewrite <- app_assoc. reflexivity. }
    rewrite DG. replace (S (S l) - 1)%nat with (length (digits (S l) (k mod fact (S l)))) by (rewrite digits_length; lia).
    rewrite aget_mid. cbn [bind]. pose proof (lt_O_fact (S l)) as FP.
    assert (Q : (k / fact (S l) < S (S l))%nat) by (apply Nat.div_lt_upper_bound; [lia|]; rewrite (fact_S (S l)) in K; nia).
    set (q := (k / fact (S l))%nat) in *. destruct (Z.ltb_spec (Z.of_nat q) 0); [lia|].
    replace (Z.to_nat (Z.of_nat q + 1)) with (S q) by lia.
    destruct (find_slot_spec q [] o (Z.of_nat (S (S l))) F ltac:(lia)) as (slot & S1 & S2). cbn [app length] in S1, S2. rewrite S1. cbn [bind].
    replace (S slot - 1)%nat with slot by lia. rewrite S2. cbn [bind].
    pose proof (put_ones o q (Z.of_nat (S (S l))) ltac:(lia) ltac:(lia)) as PO.
    rewrite IH; [|lia|apply Nat.mod_upper_bound; lia|apply put_ge; [lia|assumption]|lia].
    rewrite subst_put; [reflexivity|lia|lia|rewrite perm_length; lia].
Qed.

Lemma insert_at_perm d v : forall l, Permutation (insert_at d v l) (v :: l).
Proof.
  revert v. induction d; intros v [|x l]; cbn [insert_at]; try reflexivity.
  rewrite IHd. apply perm_swap.
Qed.
Lemma perm_arr n : forall k, Permutation (perm n k) (run_of 1 n).
Proof.
  induction n as [|n IH]; intros k; [reflexivity|]. cbn [perm]. rewrite insert_at_perm, IH, run_of_snoc.
  replace (1 + Z.of_nat n) with (Z.of_nat (S n)) by lia. apply Permutation_cons_append.
Qed.
Lemma perm_bound n k x : In x (perm n k) -> 1 <= x <= Z.of_nat n.
Proof.
  intros I. apply (Permutation_in _ (perm_arr n k)) in I. unfold run_of in I. apply in_map_iff in I. destruct I as (i & <- & I). apply in_seq in I. lia.
Qed.
Lemma insert_at_inj v : forall d l d' l', ~ In v l -> ~ In v l' -> (d <= length l)%nat -> (d' <= length l')%nat ->
  insert_at d v l = insert_at d' v l' -> d = d' /\ l = l'.
Proof.
  induction d as [|d IH]; intros l d' l' N N' B B' E.
  - destruct d' as [|d']; [cbn in E; injection E as E; auto|]. destruct l' as [|x l']; [cbn in B'; lia|]. cbn in E. injection E as E1 E2. subst. exfalso. apply N'. left. reflexivity.
  - destruct l as [|x l]; [cbn in B; lia|]. destruct d' as [|d'].
    + cbn in E. injection E as E1 E2. subst. exfalso. apply N. left. reflexivity.
    + destruct l' as [|x' l']; [cbn in B'; lia|]. cbn in E. injection E as -> E. destruct (IH l d' l') as [-> ->]; auto.
      * intros I; apply N; right; exact I.
      * intros I; apply N'; right; exact I.
      * cbn in B; lia.
      * cbn in B'; lia.
Qed.
Lemma insert_at_surj v : forall p, In v p -> exists d l, (d <= length l)%nat /\ p = insert_at d v l.
Proof.
  induction p as [|x p IH]; intros I; [destruct I|]. destruct (Z.eq_dec x v) as [->|N].
  - exists 0%nat, p. split; [lia|reflexivity].
  - destruct I as [I|I]; [congruence|]. destruct (IH I) as (d & l & B & ->). exists (S d), (x :: l). split; [cbn; lia|reflexivity].
Qed.
Lemma perm_inj n : forall k k', (k < fact n)%nat -> (k' < fact n)%nat -> perm n k = perm n k' -> k = k'.
Proof.
  induction n as [|n IH]; intros k k' K K' E; [cbn in *; lia|]. cbn [perm] in E. pose proof (lt_O_fact n) as F.
  pose proof (Nat.mod_upper_bound k (fact n) ltac:(lia)) as MB. pose proof (Nat.div_mod k (fact n) ltac:(lia)) as DM.
  pose proof (Nat.mod_upper_bound k' (fact n) ltac:(lia)) as MB'. pose proof (Nat.div_mod k' (fact n) ltac:(lia)) as DM'.
  rewrite fact_S in K, K'.
  assert (Q : (k / fact n < S n)%nat) by (apply Nat.div_lt_upper_bound; nia).
  assert (Q' : (k' / fact n < S n)%nat) by (apply Nat.div_lt_upper_bound; nia).
  apply insert_at_inj in E; [|intros I; apply perm_bound in I; lia|intros I; apply perm_bound in I; lia|rewrite perm_length; lia|rewrite perm_length; lia].
  destruct E as [E1 E2]. apply IH in E2; [|assumption|assumption]. nia.
Qed.
Lemma perm_surj n : forall p, Permutation p (run_of 1 n) -> exists k, (k < fact n)%nat /\ perm n k = p.
Proof.
  induction n as [|n IH]; intros p P.
  - exists 0%nat. split; [cbn; lia|]. cbn in P. apply Permutation_sym, Permutation_nil in P. subst. reflexivity.
  - assert (I : In (Z.of_nat (S n)) p).
    { apply (Permutation_in _ (Permutation_sym P)). rewrite run_of_snoc. apply in_app_iff. right. left. lia. }
    destruct (insert_at_surj _ _ I) as (d & l & B & ->).
    assert (P' : Permutation l (run_of 1 n)).
    { rewrite insert_at_perm, run_of_snoc in P. replace (1 + Z.of_nat n) with (Z.of_nat (S n)) in P by lia.
      rewrite <- Permutation_cons_append in P. apply Permutation_cons_inv in P. exact P. }
    destruct (IH l P') as (k & K & <-). rewrite perm_length in B. exists (d * fact n + k)%nat. rewrite fact_S. split; [nia|]. cbn [perm].
    pose proof (lt_O_fact n).
    assert ((d * fact n + k) / fact n = d /\ (d * fact n + k) mod fact n = k)%nat as [-> ->]; [|reflexivity].
    split; symmetry; [apply (Nat.div_unique _ _ _ k)|apply (Nat.mod_unique _ _ d)]; lia.
Qed.

Lemma digits_range n : forall k, (k < fact n)%nat -> Forall (fun x => 0 <= x < Z.of_nat n) (digits n k).
Proof.
  induction n as [|n IH]; intros k K; [constructor|]. cbn [digits]. pose proof (lt_O_fact n) as F. rewrite fact_S in K. apply Forall_app. split.
  - eapply Forall_impl; [|apply IH; apply Nat.mod_upper_bound; lia]. cbv beta. intros; lia.
  - constructor; [|constructor]. assert ((k / fact n < S n)%nat) by (apply Nat.div_lt_upper_bound; nia). lia.
Qed.

Lemma digits_0 n : digits n 0 = repeat 0 n.
Proof.
  induction n as [|n IH]; [reflexivity|]. cbn [digits]. rewrite Nat.mod_0_l, Nat.div_0_l by (pose proof (lt_O_fact n); lia).
  rewrite IH. replace (S n) with (n + 1)%nat at 1 by lia. change ([Z.of_nat 0]) with (repeat 0 1). rewrite <- repeat_app. reflexivity.
Qed.

(** One call on a valid state. *)
Lemma permut_tail n (s order : list Z) s' c' : 1 <= n < INT_MAX -> (forall x r, s = x :: r -> True) ->
  Z.of_nat (length order) = n -> Z.of_nat (length s) = n -> Forall (fun x => 0 <= x < INT_MAX) s ->
  forall c, c = 0 \/ c = 1 -> ripple 1 c s = (s', c') ->
  carry_from (Z.to_nat n) 1 n CPS_OK (addhd c s) = Some (if c' =? 0 then CPS_OK else CPS_NO_MORE, s').
Proof.
  intros N _ LO LS F c C R. pose proof (carry_from_spec s [] c CPS_OK n ltac:(cbn; lia) ltac:(lia) C F) as SP.
  cbn [app length] in SP. rewrite R in SP. replace (Z.to_nat n) with (length s) by lia. apply SP. intros ->. cbn in LS. lia.
Qed.

Lemma permut_step n k order : 1 <= n < INT_MAX -> Z.of_nat (length order) = n -> (k < fact (Z.to_nat n))%nat ->
  let m := Z.to_nat n in
  permut n (digits m k) order =
  Some (if (S k =? fact m)%nat then (CPS_NO_MORE, digits m 0, perm m 0) else (CPS_OK, digits m (S k), perm m (S k))).
Proof.
  intros N LO K m. unfold permut. destruct (Z.ltb_spec n 1); [lia|].
  assert (LD : Z.of_nat (length (digits m k)) = n) by (rewrite digits_length; unfold m; lia).
  pose proof (digits_range m k K) as DR.
  assert (F : Forall (fun x => 0 <= x < INT_MAX) (digits m k)) by (eapply Forall_impl; [|exact DR]; cbv beta; unfold m; intros; lia).
  pose proof (ripple_one m k K) as RO.
  destruct (digits m k) as [|x s] eqn:E; [cbn in LD; lia|]. assert (0 <= x < INT_MAX) as [X0 X1] by (inversion F; assumption). cbn [aget nth_error bind]. destruct (Z.ltb_spec x 0); [lia|].
  cbn [bind aget nth_error]. rewrite chk_ok by (unfold INT_MIN; lia). cbn [bind].
  assert (AS : forall v, aset (x :: s) 0 v = Some (v :: s)) by (intros v; exact (aset_mid [] x s v)). rewrite AS. cbn [bind]. rewrite chk_ok by (unfold INT_MIN; lia). cbn [bind].
  destruct (ripple 1 1 (x :: s)) as [s' c'] eqn:R.
  pose proof (permut_tail n (x :: s) order s' c' N ltac:(auto) LO LD F 1 ltac:(tauto) R) as CT. cbn [addhd] in CT. rewrite CT. cbn [bind fst snd].
  pose proof (ones_from_spec (Z.to_nat n) [] order ltac:(lia)) as ON. cbn [app length] in ON. rewrite ON. cbn [bind]. fold m.
  assert (O1 : ones (repeat 1 m) = m) by (unfold ones; apply count_occ_repeat_eq; reflexivity).
  assert (OF : Forall (fun x => 1 <= x) (repeat 1 m)) by (apply Forall_forall; intros y Y; apply repeat_spec in Y; lia).
  assert (PL : forall j, (j < fact m)%nat -> place_from m (digits m j) (repeat 1 m) = Some (perm m j)).
  { intros j J. rewrite <- (app_nil_r (digits m j)). rewrite place_from_spec; [|unfold m; lia|exact J|exact OF|exact O1]. rewrite <- (perm_length m j) at 1. rewrite subst_ones. reflexivity. }
  pose proof (lt_O_fact m).
  destruct (Nat.eqb_spec (S k) (fact m)) as [SK|SK]; inversion RO; subst s' c'.
  - rewrite PL by lia. reflexivity.
  - rewrite PL by (fold m in K; lia). reflexivity.
Qed.

Lemma permut_start n state order : 1 <= n < INT_MAX -> Z.of_nat (length state) = n -> Z.of_nat (length order) = n -> hd 0 state < 0 ->
  let m := Z.to_nat n in permut n state order = Some (CPS_OK, digits m 0, perm m 0).
Proof.
  intros N LS LO HS m. unfold permut. destruct (Z.ltb_spec n 1); [lia|].
  destruct state as [|x s]; [cbn in LS; lia|]. cbn [hd] in HS. cbn [aget nth_error bind]. destruct (Z.ltb_spec x 0); [|lia].
  assert (AS : forall y s v, aset (y :: s) 0 v = Some (v :: s)) by (intros y t v; exact (aset_mid [] y t v)). rewrite AS. cbn [bind].
  pose proof (zero_from_spec (Z.to_nat n - 1) [-1] s ltac:(cbn in LS; lia)) as ZF. cbn [app length] in ZF. rewrite ZF. cbn [bind aget nth_error].
  rewrite chk_ok by (unfold INT_MIN, INT_MAX; lia). cbn [bind]. rewrite AS. cbn [bind]. rewrite chk_ok by (unfold INT_MIN; lia). cbn [bind].
  assert (D0 : -1 + 1 :: repeat 0 (Z.to_nat n - 1) = digits m 0).
  { rewrite digits_0. replace m with (S (Z.to_nat n - 1)) by (unfold m; lia). reflexivity. }
  rewrite D0. pose proof (lt_O_fact m) as FP. pose proof (ripple_zero m 0 FP) as RZ. pose proof (digits_range m 0 FP) as DR.
  assert (F : Forall (fun x => 0 <= x < INT_MAX) (digits m 0)) by (eapply Forall_impl; [|exact DR]; cbv beta; unfold m; intros; lia).
  pose proof (permut_tail n (digits m 0) order (digits m 0) 0 N ltac:(auto) LO ltac:(rewrite digits_length; unfold m; lia) F 0 ltac:(tauto) RZ) as CT.
  assert (A0 : addhd 0 (digits m 0) = digits m 0) by (destruct (digits m 0); cbn [addhd]; rewrite ?Z.add_0_r; reflexivity).
  rewrite A0 in CT. rewrite CT. cbn [bind fst snd].
  pose proof (ones_from_spec (Z.to_nat n) [] order ltac:(lia)) as ON. cbn [app length] in ON. rewrite ON. cbn [bind]. fold m.
  assert (O1 : ones (repeat 1 m) = m) by (unfold ones; apply count_occ_repeat_eq; reflexivity).
  assert (OF : Forall (fun x => 1 <= x) (repeat 1 m)) by (apply Forall_forall; intros y Y; apply repeat_spec in Y; lia).
  rewrite <- (app_nil_r (digits m 0)) at 1. rewrite place_from_spec; [|unfold m; lia|exact FP|exact OF|exact O1]. rewrite <- (perm_length m 0) at 1. rewrite subst_ones. reflexivity.
Qed.

Lemma perm_first n : perm n 0 = rev (run_of 1 n).
Proof.
  induction n as [|n IH]; [reflexivity|]. cbn [perm]. rewrite Nat.mod_0_l, Nat.div_0_l by (pose proof (lt_O_fact n); lia).
  rewrite IH, run_of_snoc, rev_app_distr. cbn [rev app insert_at]. f_equal. lia.
Qed.
Lemma insert_at_end v l : insert_at (length l) v l = l ++ [v].
Proof. induction l as [|x l IH]; [reflexivity|]. cbn. f_equal. exact IH. Qed.
Lemma perm_last n : perm n (fact n - 1) = run_of 1 n.
Proof.
  induction n as [|n IH]; [reflexivity|]. cbn [perm]. pose proof (lt_O_fact n). rewrite fact_S.
  assert ((fact n + n * fact n - 1) / fact n = n /\ (fact n + n * fact n - 1) mod fact n = fact n - 1)%nat as [-> ->].
  { split; symmetry; [apply (Nat.div_unique _ _ _ (fact n - 1))|apply (Nat.mod_unique _ _ n)]; nia. }
  rewrite IH. replace (insert_at n (Z.of_nat (S n)) (run_of 1 n)) with (insert_at (length (run_of 1 n)) (Z.of_nat (S n)) (run_of 1 n)) by (rewrite run_of_length; reflexivity).
  rewrite insert_at_end, run_of_snoc. do 2 f_equal. lia.
Qed.

Theorem permut_enumerates n state order : 1 <= n < INT_MAX -> Z.of_nat (length state) = n -> Z.of_nat (length order) = n -> hd 0 state < 0 ->
  exists enum, lists_once (arrangement n) enum /\ length enum = fact (Z.to_nat n) /\
    hd [] enum = rev (run_of 1 (Z.to_nat n)) /\ last enum [] = run_of 1 (Z.to_nat n) /\
    forall k, exists s, permut_call n k state order = Some (cycle_status (length enum) k, s, nth (k mod length enum) enum []).
Proof.
  intros N LS LO HS. set (m := Z.to_nat n). set (T := fact m). pose proof (lt_O_fact m) as TP. fold T in TP.
  set (enum := map (perm m) (seq 0 T)).
  assert (LE : length enum = T) by (unfold enum; rewrite map_length, seq_length; reflexivity).
  assert (NT : forall i, (i < T)%nat -> nth i enum [] = perm m i).
  { intros i I. unfold enum. rewrite (nth_indep _ [] (perm m 0)) by (fold enum; lia). rewrite map_nth, seq_nth by exact I. reflexivity. }
  exists enum. rewrite LE. split; [|split; [reflexivity|split; [|split]]].
  - split.
    + apply NoDup_map'; [|apply seq_NoDup]. intros x y X Y. apply in_seq in X, Y. apply perm_inj; lia.
    + intros p. unfold enum, arrangement. fold m. rewrite in_map_iff. split.
      * intros (k & <- & _). apply perm_arr.
      * intros P. destruct (perm_surj m p P) as (k & K & E). exists k. split; [exact E|]. apply in_seq. lia.
  - rewrite <- perm_first. rewrite <- NT by exact TP. destruct enum; reflexivity.
  - rewrite last_nth_len, LE, NT by lia. apply perm_last.
  - assert (G : forall k, permut_call n k state order = Some (cycle_status T k, digits m (k mod T), perm m (k mod T))).
    { induction k as [|k IH].
      - cbn [permut_call]. rewrite permut_start by assumption. rewrite Nat.mod_0_l by lia. reflexivity.
      - cbn [permut_call]. rewrite IH. pose proof (Nat.mod_upper_bound k T ltac:(lia)) as MB.
        rewrite permut_step; [|assumption|rewrite perm_length; unfold m; lia|exact MB]. fold m. fold T.
        unfold cycle_status. change (Nat.eqb (S k) 0) with false. cbn [orb]. rewrite mod_S_cases by exact TP.
        destruct (Nat.eqb_spec (S (k mod T)) T) as [E|E]; reflexivity. }
    intros k. exists (digits m (k mod T)). rewrite G, NT by (apply Nat.mod_upper_bound; lia). reflexivity.
Qed.

Lemma permut_invalid n state order : n < 1 -> permut n state order = Some (CPS_INVALID_ARG, state, order).
Proof. intros. unfold permut. destruct (Z.ltb_spec n 1); [reflexivity|lia]. Qed.

(** Pascal's rule gives n!/(k!(n-k)!). *)
Lemma binom_fact n : forall k, (k <= n)%nat -> (binom n k * (fact k * fact (n - k)) = fact n)%nat.
Proof.
  induction n as [|n IH]; intros [|k] K; [reflexivity|lia| |].
  - rewrite Nat.sub_0_r. destruct n; cbn [binom fact]; lia.
  - cbn [binom]. replace (S n - S k)%nat with (n - k)%nat by lia.
    pose proof (IH k ltac:(lia)) as A. destruct (Nat.eq_dec k n) as [->|KN].
    + assert (B : binom n (S n) = 0%nat) by (rewrite <- combos_length, combos_big by lia; reflexivity).
      rewrite B. rewrite Nat.sub_diag in *. rewrite (fact_S n). nia.
    + pose proof (IH (S k) ltac:(lia)) as B. replace (n - k)%nat with (S (n - S k)) in * by lia. rewrite !fact_S in *.
      set (d := (n - S k)%nat) in *. assert (ND : n = (k + 1 + d)%nat) by lia.
      transitivity ((1 + k) * (binom n k * (fact k * (fact d + d * fact d))) + (1 + d) * (binom n (S k) * ((fact k + k * fact k) * fact d)))%nat; [nia|].
      rewrite A, B. clearbody d. clear A B IH. subst n. nia.
Qed.

Lemma permut_invalid_iff n state order : permut n state order = Some (CPS_INVALID_ARG, state, order) <-> n < 1.
Proof.
  split; [|apply permut_invalid]. unfold permut. destruct (Z.ltb_spec n 1); [auto|].
  assert (F : forall c j m st a r, st <> CPS_INVALID_ARG -> carry_from c j m st a = Some r -> fst r <> CPS_INVALID_ARG).
  { induction c as [|c IH]; intros j m st a r ST; cbn [carry_from]; [intros E; inversion E; assumption|].
    unfold bind. intros E. repeat match type of E with
      | (match ?x with Some _ => _ | None => None end) = _ => destruct x; [|discriminate E]
      | (if ?x then _ else _) = _ => destruct x end; apply IH in E; (assumption || discriminate). }
  unfold bind. intros E. repeat match type of E with
    | (match carry_from ?a ?b ?c ?d ?e with Some _ => _ | None => None end) = _ => destruct (carry_from a b c d e) as [[st a']|] eqn:C; [|discriminate E]
    | (match ?x with Some _ => _ | None => None end) = _ => destruct x; [|discriminate E] end.
  apply F in C; [|discriminate]. cbn [fst snd] in *. congruence.
Qed.

(** The documented last combination never appears: combinations ascend. *)
Lemma combn_doc_refuted : ~ (forall nsel ncand start, 1 <= nsel <= ncand -> Z.of_nat (length start) = nsel -> hd 1 start < 1 ->
  exists k st, combn_call nsel ncand k start = Some (st, rev (run_of (ncand - nsel + 1) (Z.to_nat nsel)))).
Proof.
  intros D. destruct (D 2 3 [0; 0] ltac:(lia) eq_refl ltac:(cbn; lia)) as (k & st & E).
  destruct (combn_enumerates 2 3 [0; 0] ltac:(lia) ltac:(unfold INT_MAX; lia) eq_refl ltac:(cbn; lia)) as (enum & [_ ON] & LE & _ & _ & C).
  rewrite C in E. injection E as _ E. assert (I : In [3; 2] enum).
  { rewrite <- E. apply nth_In. apply Nat.mod_upper_bound. rewrite LE. change (binom (Z.to_nat 3) (Z.to_nat 2)) with 3%nat. lia. }
  apply ON in I. destruct I as (_ & O & _). inversion O as [|? ? _ F]; subst. inversion F; subst. lia.
Qed.
