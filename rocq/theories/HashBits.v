(** * Which three characters have a hash in a table: a search that is fast enough for
    thousands of characters

    The numbers are lists of bits, the least significant first.  Inverting one step of
    the hash is then one pass over the list. *)
From Coq Require Import ZArith.
From Verif Require Import FbFacts Str M3Hash FontDefs SpecPaint LookupProofs HashProofs SpecIndex IndexCheck.

(** ** Bits *)
Fixpoint bits (n : nat) (x : N) : list bool :=
  match n with O => [] | S n' => N.odd x :: bits n' (N.div2 x) end.

Fixpoint xor_bits (p q : list bool) : list bool :=
  match p, q with
  | b :: p', c :: q' => (if b then if c then false else true else c) :: xor_bits p' q'
  | _, _ => []
  end.

Definition bit (b : bool) : N := if b then 1 else 0.
Fixpoint value (l : list bool) : N :=
  match l with [] => 0 | b :: t => bit b + 2 * value t end.

Lemma bits_length n x : length (bits n x) = n.
Proof. revert x; induction n; intros; simpl; auto. Qed.

Lemma bits_value n x : value (bits n x) = x mod 2 ^ N.of_nat n.
Proof.
  revert x; induction n as [|n IH]; intros x.
  - cbn [bits value]. change (2 ^ N.of_nat 0) with 1. rewrite N.mod_1_r. reflexivity.
  - cbn [bits value]. rewrite IH. rewrite Nnat.Nat2N.inj_succ, N.pow_succ_r'.
    assert (P : 2 ^ N.of_nat n <> 0) by (apply N.pow_nonzero; discriminate).
    rewrite N.mod_mul_r by (try exact P; discriminate).
    rewrite N.div2_div. f_equal.
    rewrite <- N.bit0_odd, <- N.bit0_mod. destruct (N.testbit x 0); reflexivity.
Qed.

Lemma bits_inj n x y : x < 2 ^ N.of_nat n -> y < 2 ^ N.of_nat n -> bits n x = bits n y -> x = y.
Proof.
  intros Hx Hy E. apply (f_equal value) in E. rewrite !bits_value, !N.mod_small in E by assumption. exact E.
Qed.

Lemma bits_of_value l : bits (length l) (value l) = l.
Proof.
  induction l as [|b l IH]; [reflexivity|]. cbn [length bits value].
  replace (N.div2 (bit b + 2 * value l)) with (value l) by (rewrite N.div2_div; destruct b; unfold bit; lia).
  rewrite IH. f_equal. destruct b; unfold bit; rewrite N.odd_add, N.odd_mul; reflexivity.
Qed.

Lemma value_lt l : value l < 2 ^ N.of_nat (length l).
Proof.
  induction l as [|b l IH]; [reflexivity|]. cbn [length value].
  rewrite Nnat.Nat2N.inj_succ, N.pow_succ_r'. destruct b; unfold bit; lia.
Qed.

Lemma xor_bits_spec n x y : xor_bits (bits n x) (bits n y) = bits n (N.lxor x y).
Proof.
  revert x y; induction n as [|n IH]; intros x y; [reflexivity|]. cbn [bits xor_bits]. f_equal.
  - rewrite <- !N.bit0_odd, N.lxor_spec. destruct (N.testbit x 0), (N.testbit y 0); reflexivity.
  - rewrite IH. f_equal. rewrite !N.div2_spec, N.shiftr_lxor. reflexivity.
Qed.

(** ** Trees of values found by lists of bits of the same length *)
Inductive btree (A : Type) := BLeaf | BTip (k : list bool) (vs : list A) | BNode (l r : btree A).
Arguments BLeaf {A}.
Arguments BTip {A} k vs.
Arguments BNode {A} l r.

(** two keys *)
Fixpoint bsplit {A} (k : list bool) (vs : list A) (j : list bool) (us : list A) : btree A :=
  match k, j with
  | b :: k', c :: j' =>
      if b then if c then BNode BLeaf (bsplit k' vs j' us) else BNode (BTip j' us) (BTip k' vs)
      else if c then BNode (BTip k' vs) (BTip j' us) else BNode (bsplit k' vs j' us) BLeaf
  | _, _ => BTip [] (vs ++ us)
  end.

Fixpoint badd {A} (k : list bool) (v : A) (t : btree A) {struct t} : btree A :=
  match t with
  | BLeaf => BTip k [v]
  | BTip j us => bsplit k [v] j us
  | BNode l r =>
      match k with
      | [] => t
      | b :: k' => if b then BNode l (badd k' v r) else BNode (badd k' v l) r
      end
  end.

Definition badds {A} (ks : list (list bool * A)) (t : btree A) : btree A :=
  fold_left (fun t k => badd (fst k) (snd k) t) ks t.

Fixpoint xor_is (p q k : list bool) : bool :=
  match p, q, k with
  | b :: p', c :: q', d :: k' =>
      if (if b then if c then false else true else c) then if d then xor_is p' q' k' else false
      else if d then false else xor_is p' q' k'
  | _, _, _ => true
  end.

(** the values at the exclusive or of p and q *)
Fixpoint bget {A} (p q : list bool) (t : btree A) {struct t} : list A :=
  match t with
  | BLeaf => []
  | BTip k vs => if xor_is p q k then vs else []
  | BNode l r =>
      match p, q with
      | b :: p', c :: q' => bget p' q' (if b then (if c then l else r) else (if c then r else l))
      | _, _ => []
      end
  end.

(** All values of t whose keys, exclusive or p, are keys of t' *)
Fixpoint bmeet {A B} (ok : A -> bool) (p : list bool) (t : btree A) (t' : btree B) {struct t} : bool :=
  match t with
  | BLeaf => true
  | BTip k vs => match bget p k t' with [] => true | _ => forallb ok vs end
  | BNode l r =>
      match t' with
      | BLeaf => true
      | BTip j _ => forallb ok (bget p j t)
      | BNode l' r' =>
          match p with
          | [] => false
          | b :: p' =>
              if b then if bmeet ok p' l r' then bmeet ok p' r l' else false
              else if bmeet ok p' l l' then bmeet ok p' r r' else false
          end
      end
  end.

(** *** What is put in is found *)
Fixpoint bin {A} (k : list bool) (v : A) (t : btree A) {struct t} : Prop :=
  match t with
  | BLeaf => False
  | BTip j vs => k = j /\ In v vs
  | BNode l r => match k with [] => False | b :: k' => bin k' v (if b then r else l) end
  end.

(** all keys have length n *)
Fixpoint sized {A} (n : nat) (t : btree A) {struct t} : Prop :=
  match t with
  | BLeaf => True
  | BTip k _ => length k = n
  | BNode l r => match n with O => False | S n' => sized n' l /\ sized n' r end
  end.

Lemma bsplit_in {A} k (vs : list A) j us v : length k = length j ->
  (In v vs -> bin k v (bsplit k vs j us)) /\ (In v us -> bin j v (bsplit k vs j us)).
Proof.
  revert j; induction k as [|b k IH]; intros [|c j] H; try discriminate.
  - split; intros; (split; [reflexivity|]; apply in_or_app; auto).
  - injection H as H. destruct (IH j H) as [X Y].
    cbn [bsplit]. destruct b, c; simpl; auto.
Qed.

Lemma bsplit_sized {A} n k (vs : list A) j us : length k = n -> length j = n -> sized n (bsplit k vs j us).
Proof.
  revert n j; induction k as [|b k IH]; intros n [|c j] <- H; try discriminate; [reflexivity|].
  injection H as H. pose proof (IH _ _ eq_refl H) as S.
  cbn [bsplit length]. destruct b, c; simpl; auto.
Qed.

Lemma badd_sized {A} n k (v : A) t : length k = n -> sized n t -> sized n (badd k v t).
Proof.
  revert n k; induction t as [|j us|l IHl r IHr]; intros n k H S.
  - exact H.
  - apply bsplit_sized; assumption.
  - cbn [badd]. destruct k as [|b k]; [exact S|]. cbn [length] in H. subst n. cbn [sized] in S. destruct S as [S1 S2].
    destruct b; cbn [sized]; split; auto.
Qed.

Lemma badd_in {A} n k (v : A) t : length k = n -> sized n t -> bin k v (badd k v t).
Proof.
  revert n k; induction t as [|j us|l IHl r IHr]; intros n k H S.
  - split; [reflexivity|left; reflexivity].
  - cbn [sized] in S. apply bsplit_in; [congruence|left; reflexivity].
  - cbn [badd]. destruct k as [|b k]; cbn [length] in H; subst n; [destruct S|]. cbn [sized] in S. destruct S as [S1 S2].
    destruct b; cbn [bin]; eauto.
Qed.

Lemma badd_keeps {A} n k (v : A) j u t : length k = n -> sized n t -> bin j u t -> bin j u (badd k v t).
Proof.
  revert n k j; induction t as [|i us|l IHl r IHr]; intros n k j H S B.
  - destruct B.
  - cbn [sized bin] in *. destruct B as [<- B]. apply bsplit_in; [congruence|exact B].
  - cbn [badd]. destruct k as [|b k]; [exact B|]. cbn [length] in H. subst n. cbn [sized] in S. destruct S as [S1 S2].
    destruct j as [|c j]; [destruct B|]. cbn [bin] in B. destruct b, c; cbn [bin]; eauto.
Qed.

Lemma badds_in {A} n (ks : list (list bool * A)) t : Forall (fun k => length (fst k) = n) ks -> sized n t ->
  sized n (badds ks t) /\ (forall k v, bin k v t \/ In (k, v) ks -> bin k v (badds ks t)).
Proof.
  intros F. revert t; induction F as [|[k v] ks Hk F IH]; intros t S.
  - split; [exact S|]. intros k v [H|[]]; exact H.
  - cbn [fst] in Hk. cbn [badds fold_left fst snd]. fold (badds ks (badd k v t)).
    destruct (IH (badd k v t) (badd_sized n k v t Hk S)) as [X Y]. split; [exact X|].
    intros j u [H|[H|H]]; apply Y.
    + left. eapply badd_keeps; eassumption.
    + left. injection H as <- <-. eapply badd_in; eassumption.
    + right; exact H.
Qed.

Lemma xor_is_ok p q : xor_is p q (xor_bits p q) = true.
Proof.
  revert q; induction p as [|b p IH]; intros [|c q]; try reflexivity.
  cbn [xor_bits xor_is]. destruct b, c; apply IH.
Qed.

Lemma bget_ok {A} p q (v : A) t : length p = length q -> bin (xor_bits p q) v t -> In v (bget p q t).
Proof.
  revert p q; induction t as [|k vs|l IHl r IHr]; intros p q H B.
  - destruct B.
  - cbn [bin] in B. destruct B as [<- B]. cbn [bget]. rewrite xor_is_ok. exact B.
  - destruct p as [|b p], q as [|c q]; try discriminate; [destruct B|].
    injection H as H. cbn [xor_bits bin] in B. cbn [bget]. destruct b, c; auto.
Qed.

Lemma xor_bits_back p q : length p = length q -> xor_bits p (xor_bits p q) = q.
Proof.
  revert q; induction p as [|b p IH]; intros [|c q] H; try discriminate; [reflexivity|].
  injection H as H. cbn [xor_bits]. rewrite IH by exact H. destruct b, c; reflexivity.
Qed.
Lemma xor_bits_length p q : length p = length q -> length (xor_bits p q) = length p.
Proof.
  revert q; induction p as [|b p IH]; intros [|c q] H; try discriminate; [reflexivity|].
  injection H as H. cbn [xor_bits length]. rewrite IH by exact H. reflexivity.
Qed.

Lemma bmeet_ok {A B} (ok : A -> bool) p (t : btree A) (t' : btree B) k v u :
  bmeet ok p t t' = true -> length p = length k -> bin k v t -> bin (xor_bits p k) u t' -> ok v = true.
Proof.
  revert p t' k; induction t as [|j vs|l IHl r IHr]; intros p t' k M L B1 B2.
  - destruct B1.
  - cbn [bin] in B1. destruct B1 as [<- B1]. cbn [bmeet] in M.
    apply bget_ok in B2; [|exact L]. destruct (bget p k t'); [destruct B2|].
    rewrite forallb_forall in M. apply M. exact B1.
  - destruct t' as [|j us|l' r']; [destruct B2| |].
    + cbn [bin] in B2. destruct B2 as [<- B2]. cbn [bmeet] in M. rewrite forallb_forall in M. apply M.
      apply bget_ok; [symmetry; apply xor_bits_length; exact L|]. rewrite xor_bits_back by exact L. exact B1.
    + destruct p as [|b p], k as [|c k]; try discriminate.
      injection L as L. cbn [xor_bits bin] in B1, B2. cbn [bmeet] in M.
      destruct b, c;
        match type of M with (if ?x then _ else _) = true => destruct x eqn:M1; [|discriminate] end;
        first [eapply IHl; eassumption | eapply IHr; eassumption].
Qed.

(** ** One step back: given v and w, the r with 5 r + the constant = v xor w *)
Inductive carry := K0 | K1 | K2 | K3 | K4 | K5.
Definition carry_value (k : carry) : N :=
  match k with K0 => 0 | K1 => 1 | K2 => 2 | K3 => 3 | K4 => 4 | K5 => 5 end.

Definition next (k : carry) (c v : bool) : bool * carry :=
  match k, c, v with
  | K0, false, false => (false, K0) | K0, false, true => (true, K2)
  | K0, true, false => (true, K3)   | K0, true, true => (false, K0)
  | K1, false, false => (true, K3)  | K1, false, true => (false, K0)
  | K1, true, false => (false, K1)  | K1, true, true => (true, K3)
  | K2, false, false => (false, K1) | K2, false, true => (true, K3)
  | K2, true, false => (true, K4)   | K2, true, true => (false, K1)
  | K3, false, false => (true, K4)  | K3, false, true => (false, K1)
  | K3, true, false => (false, K2)  | K3, true, true => (true, K4)
  | K4, false, false => (false, K2) | K4, false, true => (true, K4)
  | K4, true, false => (true, K5)   | K4, true, true => (false, K2)
  | K5, false, false => (true, K5)  | K5, false, true => (false, K2)
  | K5, true, false => (false, K3)  | K5, true, true => (true, K5)
  end.

Lemma next_ok k c v : let '(r, k') := next k c v in
  5 * bit r + carry_value k + bit c = bit v + 2 * carry_value k'.
Proof. destruct k, c, v; reflexivity. Qed.

Fixpoint solve (k : carry) (cs vs ws : list bool) : list bool :=
  match cs, vs, ws with
  | c :: cs', v :: vs', w :: ws' =>
      match next k c (if v then if w then false else true else w) with
      | (r, k') => r :: solve k' cs' vs' ws'
      end
  | _, _, _ => []
  end.

Lemma solve_length k cs vs ws : length cs = length vs -> length cs = length ws ->
  length (solve k cs vs ws) = length cs.
Proof.
  revert k vs ws; induction cs as [|c cs IH]; intros k [|v vs] [|w ws] H1 H2; try discriminate; [reflexivity|].
  injection H1 as H1. injection H2 as H2. cbn [solve].
  destruct (next k c _) as [r k']. cbn [length]. f_equal. apply IH; assumption.
Qed.

Lemma solve_ok k cs vs ws : length cs = length vs -> length cs = length ws ->
  exists j, 5 * value (solve k cs vs ws) + carry_value k + value cs
            = value (xor_bits vs ws) + 2 ^ N.of_nat (length cs) * j.
Proof.
  revert k vs ws; induction cs as [|c cs IH]; intros k [|v vs] [|w ws] H1 H2; try discriminate.
  - exists (carry_value k). cbn [solve value xor_bits length]. change (2 ^ N.of_nat 0) with 1. lia.
  - injection H1 as H1. injection H2 as H2. cbn [solve xor_bits].
    set (x := if v then if w then false else true else w).
    pose proof (next_ok k c x) as E. destruct (next k c x) as [r k'].
    destruct (IH k' vs ws H1 H2) as (j & IHj). exists j.
    cbn [value length]. rewrite Nnat.Nat2N.inj_succ, N.pow_succ_r'. lia.
Qed.

Notation constant := 0xe6546b64 (only parsing).
Definition constant_bits : list bool := Eval vm_compute in bits 32 constant.
Definition step_back (v w : list bool) : list bool := solve K0 constant_bits v w.

Definition rot13 (x : N) : list bool := bits 32 (rotl32 x 13).

Lemma step_back_ok h k v w : h < 2 ^ 32 -> mix h k = N.lxor v w ->
  step_back (bits 32 v) (bits 32 w) = bits 32 (rotl32 (N.lxor h (scramble k)) 13).
Proof.
  intros Hh E. unfold step_back.
  assert (L1 : length constant_bits = length (bits 32 v)) by (rewrite bits_length; reflexivity).
  assert (L2 : length constant_bits = length (bits 32 w)) by (rewrite bits_length; reflexivity).
  pose proof (solve_length K0 _ _ _ L1 L2) as L. change (length constant_bits) with 32%nat in L.
  destruct (solve_ok K0 _ _ _ L1 L2) as (j & S).
  rewrite xor_bits_spec, <- E, bits_value in S.
  change (value constant_bits) with constant in S. change (carry_value K0) with 0 in S.
  change (2 ^ N.of_nat (length constant_bits)) with (2 ^ 32) in S. change (2 ^ N.of_nat 32) with (2 ^ 32) in S.
  set (l := solve K0 constant_bits (bits 32 v) (bits 32 w)) in *.
  rewrite <- (bits_of_value l), L. f_equal.
  pose proof (value_lt l) as Vl. rewrite L in Vl. change (2 ^ N.of_nat 32) with (2 ^ 32) in Vl.
  set (r := rotl32 (N.lxor h (scramble k)) 13).
  assert (Hr : r < 2 ^ 32) by (apply rotl_lt; [apply lxor_u32; [exact Hh|apply scramble_lt]|lia]).
  assert (M : mix h k = (5 * r + constant) mod 2 ^ 32).
  { unfold mix. cbv zeta. fold r. unfold wadd32, wmul32. rewrite !w32_mod.
    rewrite N.add_mod_idemp_l by discriminate. f_equal. lia. }
  rewrite M in S. rewrite N.mod_mod in S by discriminate.
  assert (Q : (5 * value l) mod 2 ^ 32 = (5 * r) mod 2 ^ 32) by lia.
  clear - Q Vl Hr. lia.
Qed.

(** ** Three characters with a hash in a table *)
Definition of_length (l : list N) (len : N) : list N := filter (fun d => len_utf8 d =? len) l.
Definition key_bits (l : list N) (len : N) : list (list bool) :=
  map (fun d => bits 32 (scramble d)) (of_length l len).
Definition marked (ks : list (list bool)) : list (list bool * unit) := map (fun k => (k, tt)) ks.

(** Second characters of length len: from the last character backwards ... *)
Definition backward (seed : N) (hs firsts others : list N) (fl : N) (ok : N -> N -> bool) (len : N) : bool :=
  let us := map unavalanche hs in
  let found := fold_left (fun t len' =>
      let keys := key_bits others len' in
      fold_left (fun t u =>
        let w := bits 32 (unmix (N.lxor u (fl + len + len'))) in
        badds (marked (map (step_back w) keys)) t) us t) [1; 2; 3; 4] BLeaf in
  let ds := badds (map (fun d => (rot13 (scramble d), d)) (of_length others len)) BLeaf in
  forallb (fun a => bmeet (ok a) (rot13 (mix seed a)) ds found) firsts.

(** ... or from the first two forwards *)
Definition mix_key (h k : N) : N := wadd32 (wmul32 (rotl32 (N.lxor h k) 13) 5) constant.
Lemma mix_key_ok h d : mix_key h (scramble d) = mix h d.
Proof. reflexivity. Qed.

Definition forward (seed : N) (hs firsts others : list N) (fl : N) (ok : N -> N -> bool) (len : N) : bool :=
  let us := map unavalanche hs in
  let ds := map (fun d => (d, scramble d)) (of_length others len) in
  let firsts := badds (flat_map (fun a =>
      let st := mix seed a in map (fun dk => (bits 32 (mix_key st (snd dk)), (a, fst dk))) ds) firsts) BLeaf in
  forallb (fun len' =>
    let keys := badds (marked (key_bits others len')) BLeaf in
    forallb (fun u =>
      bmeet (fun ad => ok (fst ad) (snd ad)) (bits 32 (unmix (N.lxor u (fl + len + len')))) firsts keys)
    us) [1; 2; 3; 4].

Lemma key_bits_sized l len : Forall (fun k => length k = 32%nat) (key_bits l len).
Proof. apply Forall_map, Forall_forall. intros d _. apply bits_length. Qed.
Lemma marked_sized n ks : Forall (fun k => length k = n) ks ->
  Forall (fun k : list bool * unit => length (fst k) = n) (marked ks).
Proof. intros H. apply Forall_map. exact H. Qed.

Lemma of_length_in l d : In d l -> In d (of_length l (len_utf8 d)).
Proof. intros H. apply filter_In. split; [exact H|apply N.eqb_refl]. Qed.

Lemma last_of_three seed fl a d e : seed < 2 ^ 32 -> len_utf8 a = fl ->
  unmix (N.lxor (unavalanche (hash_all [a; d; e] seed)) (fl + len_utf8 d + len_utf8 e))
  = N.lxor (mix (mix seed a) d) (scramble e).
Proof.
  intros Hs Hl. pose proof (before_last_ok [a; d] e seed Hs) as B. cbn [app fold_left] in B.
  pose proof (len_utf8_pos a). pose proof (len_utf8_pos d). pose proof (len_utf8_pos e).
  rewrite w32_small in B by (cbn [str_len]; lia). rewrite before_last_eq in B.
  replace (str_len [a; d; e]) with (fl + len_utf8 d + len_utf8 e) in B by (cbn [str_len]; lia).
  exact B.
Qed.

(** the nested insertions of [backward] *)
Lemma fold_badds {A} (n : nat) (f : A -> list (list bool * unit)) l t :
  (forall x, Forall (fun k => length (fst k) = n) (f x)) -> sized n t ->
  sized n (fold_left (fun t x => badds (f x) t) l t) /\
  (forall k, bin k tt t \/ (exists x, In x l /\ In (k, tt) (f x)) ->
     bin k tt (fold_left (fun t x => badds (f x) t) l t)).
Proof.
  intros Hf. revert t; induction l as [|x l IH]; intros t S.
  - split; [exact S|]. intros k [H|(x & [] & _)]; exact H.
  - cbn [fold_left]. destruct (badds_in n (f x) t (Hf x) S) as [S1 B1].
    destruct (IH _ S1) as [S2 B2]. split; [exact S2|].
    intros k [H|(y & [<-|Hy] & Hk)]; apply B2.
    + left. apply B1. left; exact H.
    + left. apply B1. right; exact Hk.
    + right. exists y. split; assumption.
Qed.

Lemma badds_app {A} (ks js : list (list bool * A)) t : badds (ks ++ js) t = badds js (badds ks t).
Proof. apply fold_left_app. Qed.
Lemma fold_badds_flat {A B} (f : B -> list (list bool * A)) l t :
  fold_left (fun t x => badds (f x) t) l t = badds (flat_map f l) t.
Proof.
  revert t; induction l as [|x l IH]; intros t; [reflexivity|].
  cbn [fold_left flat_map]. rewrite badds_app. apply IH.
Qed.

Lemma backward_ok seed hs firsts others fl ok a d e :
  seed < 2 ^ 32 -> backward seed hs firsts others fl ok (len_utf8 d) = true ->
  In a firsts -> len_utf8 a = fl -> In d others -> In e others ->
  In (hash_all [a; d; e] seed) hs -> ok a d = true.
Proof.
  intros Hs H Ha Hl Hd He Hin. unfold backward in H. cbv zeta in H.
  rewrite forallb_forall in H. specialize (H a Ha). cbv beta in H.
  apply (bmeet_ok (ok a) _ _ _ (rot13 (scramble d)) d tt) in H; [exact H| | |].
  - unfold rot13. rewrite !bits_length. reflexivity.
  - apply (badds_in 32 _ BLeaf).
    + apply Forall_map, Forall_forall. intros x _. apply bits_length.
    + exact I.
    + right. apply (in_map (fun d => (rot13 (scramble d), d))). apply of_length_in. exact Hd.
  - unfold rot13. rewrite xor_bits_spec.
    replace (N.lxor (rotl32 (mix seed a) 13) (rotl32 (scramble d) 13))
      with (rotl32 (N.lxor (mix seed a) (scramble d)) 13).
    2:{ assert (X : N.lxor (mix seed a) (scramble d) < 2 ^ 32) by (apply lxor_u32; [apply mix_lt|apply scramble_lt]).
        apply N.bits_inj; intros i.
        rewrite N.lxor_spec, !rotl_bits by (try exact X; try apply mix_lt; try apply scramble_lt; lia).
        rewrite N.lxor_spec. destruct (i <? 32); reflexivity. }
    clear H.
    set (g := fun len' : N => flat_map (fun u => marked (map (step_back (bits 32 (unmix (N.lxor u (fl + len_utf8 d + len')))))
                                           (key_bits others len'))) (map unavalanche hs)).
    assert (E : forall l t, fold_left (fun t len' =>
        fold_left (fun t u =>
          badds (marked (map (step_back (bits 32 (unmix (N.lxor u (fl + len_utf8 d + len'))))) (key_bits others len'))) t)
          (map unavalanche hs) t) l t = fold_left (fun t x => badds (g x) t) l t).
    { induction l as [|x l IH]; intros t; [reflexivity|]. cbn [fold_left]. rewrite IH. f_equal.
      unfold g. rewrite <- fold_badds_flat. reflexivity. }
    rewrite E. clear E.
    assert (G : forall x, Forall (fun k : list bool * unit => length (fst k) = 32%nat) (g x)).
    { intros x. apply Forall_forall. intros k Hk. unfold g in Hk. apply in_flat_map in Hk as (u & _ & Hk).
      unfold marked in Hk. rewrite map_map in Hk.
      apply in_map_iff in Hk as (j & <- & Hj). cbn [fst]. unfold step_back.
      pose proof (key_bits_sized others x) as S. rewrite Forall_forall in S. specialize (S j Hj).
      rewrite solve_length; rewrite ?bits_length, ?S; reflexivity. }
    apply (fold_badds 32 g [1; 2; 3; 4] BLeaf G I). right.
    exists (len_utf8 e). split; [apply len_utf8_cases|]. unfold g. apply in_flat_map.
    exists (unavalanche (hash_all [a; d; e] seed)). split; [apply in_map; exact Hin|].
    rewrite (last_of_three seed fl a d e Hs Hl). apply (in_map (fun k => (k, tt))). apply in_map_iff.
    exists (bits 32 (scramble e)). split.
    + apply step_back_ok; [apply mix_lt|]. symmetry. apply lxor_back.
    + unfold key_bits. apply (in_map (fun d => bits 32 (scramble d))). apply of_length_in. exact He.
Qed.

Lemma forward_ok seed hs firsts others fl ok a d e :
  seed < 2 ^ 32 -> forward seed hs firsts others fl ok (len_utf8 d) = true ->
  In a firsts -> len_utf8 a = fl -> In d others -> In e others ->
  In (hash_all [a; d; e] seed) hs -> ok a d = true.
Proof.
  intros Hs H Ha Hl Hd He Hin. unfold forward in H. cbv zeta in H.
  rewrite forallb_forall in H. specialize (H _ (len_utf8_cases e)). cbv beta in H.
  rewrite forallb_forall in H. specialize (H _ (in_map unavalanche _ _ Hin)).
  rewrite (last_of_three seed fl a d e Hs Hl) in H.
  apply (bmeet_ok (fun ad : N * N => ok (fst ad) (snd ad)) _ _ _ (bits 32 (mix (mix seed a) d)) (a, d) tt) in H;
    [exact H| | |].
  - rewrite !bits_length. reflexivity.
  - apply (badds_in 32 _ BLeaf).
    + apply Forall_forall. intros k Hk. apply in_flat_map in Hk as (x & _ & Hk).
      apply in_map_iff in Hk as (y & <- & _). apply bits_length.
    + exact I.
    + right. apply in_flat_map. exists a. split; [exact Ha|].
      rewrite map_map. cbn [fst snd]. rewrite <- (mix_key_ok (mix seed a) d).
      apply (in_map (fun d => (bits 32 (mix_key (mix seed a) (scramble d)), (a, d)))). apply of_length_in. exact Hd.
  - rewrite xor_bits_spec. rewrite (N.lxor_comm (N.lxor _ _)), <- N.lxor_assoc, N.lxor_nilpotent, N.lxor_0_l.
    apply (badds_in 32 _ BLeaf (marked_sized 32 _ (key_bits_sized others _)) I). right.
    apply (in_map (fun k => (k, tt))).
    unfold key_bits. apply (in_map (fun d => bits 32 (scramble d))). apply of_length_in. exact He.
Qed.
