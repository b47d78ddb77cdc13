(** * Boolean checks of the font tables against the index lists, and their soundness *)
From Coq Require Import ZArith.
From Verif Require Import FbFacts Str M3Hash FontDefs SpecPaint LookupProofs HashProofs SpecIndex.

(** ** Finite maps from numbers, as binary trees *)
Inductive trie := TLeaf | TNode (v : option N) (l r : trie).

Fixpoint tget (p : positive) (t : trie) : option N :=
  match t with
  | TLeaf => None
  | TNode v l r =>
      match p with
      | xH => v
      | xO q => tget q l
      | xI q => tget q r
      end
  end.

Fixpoint tput (p : positive) (x : N) (t : trie) : trie :=
  let '(v, l, r) := match t with TLeaf => (None, TLeaf, TLeaf) | TNode v l r => (v, l, r) end in
  match p with
  | xH => TNode (Some x) l r
  | xO q => TNode v (tput q x l) r
  | xI q => TNode v l (tput q x r)
  end.

Lemma tget_leaf p : tget p TLeaf = None.
Proof. destruct p; reflexivity. Qed.
Lemma tget_same p x t : tget p (tput p x t) = Some x.
Proof. revert t; induction p; intros []; simpl; auto. Qed.
Lemma tget_other p q x t : p <> q -> tget p (tput q x t) = tget p t.
Proof.
  revert q t; induction p; intros [q|q|] [|v l r] H; simpl; try reflexivity; try congruence;
    try (rewrite IHp by congruence; try apply tget_leaf; reflexivity); try apply tget_leaf.
Qed.

Fixpoint tbuild (l : list (N * N)) : trie :=
  match l with
  | [] => TLeaf
  | (k, v) :: rest => tput (N.succ_pos k) v (tbuild rest)
  end.

Lemma succ_pos_inj a b : N.succ_pos a = N.succ_pos b -> a = b.
Proof. intros H. apply (f_equal N.pos) in H. rewrite !N.succ_pos_spec in H. lia. Qed.

Lemma tbuild_some l k v : tget (N.succ_pos k) (tbuild l) = Some v -> In (k, v) l.
Proof.
  induction l as [|[k' v'] l IH]; cbn [tbuild]; [rewrite tget_leaf; discriminate|].
  destruct (N.eq_dec k k') as [->|Hn].
  - rewrite tget_same. intros E; injection E as ->. left; reflexivity.
  - rewrite tget_other by (intros H; apply Hn, succ_pos_inj; exact H). intros E; right; auto.
Qed.
Lemma tbuild_none l k : tget (N.succ_pos k) (tbuild l) = None -> ~ In k (map fst l).
Proof.
  induction l as [|[k' v'] l IH]; cbn [tbuild map fst]; [intros _ []|].
  destruct (N.eq_dec k k') as [->|Hn].
  - rewrite tget_same. discriminate.
  - rewrite tget_other by (intros H; apply Hn, succ_pos_inj; exact H).
    intros E [H|H]; [congruence|exact (IH E H)].
Qed.

(** a set of numbers *)
Definition tset (l : list N) : trie := tbuild (map (fun k => (k, 0)) l).
Definition tmem (k : N) (t : trie) : bool :=
  match tget (N.succ_pos k) t with Some _ => true | None => false end.
Lemma tmem_in l k : tmem k (tset l) = true -> In k l.
Proof.
  unfold tmem, tset. destruct (tget _ _) eqn:E; [|discriminate]. intros _.
  apply tbuild_some in E. apply in_map_iff in E as (x & Hx & Hin). injection Hx as -> _. exact Hin.
Qed.
Lemma tmem_notin l k : tmem k (tset l) = false -> ~ In k l.
Proof.
  unfold tmem, tset. destruct (tget _ _) eqn:E; [discriminate|]. intros _.
  apply tbuild_none in E. rewrite map_map in E. cbn [fst] in E. rewrite map_id in E. exact E.
Qed.

Lemma in_combine_nth {A B} (l : list A) (l' : list B) a b :
  In (a, b) (combine l l') -> exists k, nth_error l k = Some a /\ nth_error l' k = Some b.
Proof.
  revert l'; induction l as [|x l IH]; intros [|y l']; simpl; try contradiction.
  intros [H|H].
  - injection H as -> ->. exists O; auto.
  - destruct (IH l' H) as (k & H1 & H2). exists (S k); auto.
Qed.

(** ** Every listed cluster is found (C29) *)

(** the block that holds a character, with its table as a map *)
Definition block_maps (f : font) : list (block * trie) :=
  map (fun b => (b, tbuild (combine (b_hash b) (b_offset b)))) (f_blocks f).

Definition found_at (f : font) (maps : list (block * trie)) (cluster : str) (off : N) : bool :=
  match cluster with
  | [] => false
  | ch :: _ =>
      match find (fun bt => (b_low (fst bt) <=? ch) && (ch <=? b_high (fst bt))) maps with
      | None => false
      | Some (b, t) =>
          match b_limits b with
          | [] => false
          | l :: _ =>
              (N.of_nat (length cluster) <=? l)
              && match tget (N.succ_pos (hash_all cluster (f_seed f))) t with
                 | Some o => o =? off
                 | None => false
                 end
          end
      end
  end.

Lemma find_map {A B} (g : A -> B) p l : find p (map g l) = option_map g (find (fun a => p (g a)) l).
Proof. induction l as [|a l IH]; [reflexivity|]. simpl. destruct (p (g a)); auto. Qed.

Lemma found_at_ok f cluster off :
  font_ok f -> found_at f (block_maps f) cluster off = true ->
  glyph_for f cluster = Some (off, length cluster).
Proof.
  intros Hf. unfold found_at, glyph_for, block_maps. destruct cluster as [|ch t]; [discriminate|].
  rewrite find_map. cbn [fst].
  destruct (find _ (f_blocks f)) as [b|] eqn:Eb; cbn [option_map]; [|discriminate].
  apply find_some in Eb as [Hin _].
  destruct (b_limits b) as [|l rest]; [discriminate|].
  intros H. apply andb_prop in H as [Hl H].
  destruct (tget _ _) as [o|] eqn:E; [|discriminate]. apply N.eqb_eq in H as ->.
  apply tbuild_some, in_combine_nth in E as (k & E1 & E2).
  cbn [match_limits]. rewrite grapheme_cluster_spec. cbn [fst].
  rewrite firstn_all2 by lia.
  assert (Hs : sorted_lt (b_hash b)) by (pose proof (fo_sorted f Hf) as H; rewrite Forall_forall in H; exact (H b Hin)).
  rewrite (index_of_unique _ _ _ Hs E1).
  rewrite (nth_error_nth _ _ 0 E2). rewrite Nat.min_r by lia. reflexivity.
Qed.

Fixpoint all_found (f : font) (maps : list (block * trie)) (clusters : list str) (offs : list N) : bool :=
  match clusters, offs with
  | [], [] => true
  | cl :: clusters', off :: offs' => found_at f maps cl off && all_found f maps clusters' offs'
  | _, _ => false
  end.

Lemma all_found_ok f clusters offs :
  font_ok f -> all_found f (block_maps f) clusters offs = true ->
  length clusters = length offs /\
  forall i cl, nth_error clusters i = Some cl ->
    glyph_for f cl = Some (nth i offs 0, length cl).
Proof.
  intros Hf. revert offs; induction clusters as [|cl clusters IH]; intros [|off offs]; cbn [all_found]; try discriminate.
  - intros _. split; [reflexivity|]. intros [|i] c E; discriminate.
  - intros H. apply andb_prop in H as [H1 H2]. destruct (IH offs H2) as [L I].
    split; [simpl; congruence|]. intros [|i] c E.
    + injection E as <-. apply found_at_ok; assumption.
    + apply I. exact E.
Qed.

(** alias and canonical cluster are found at the same offset *)
Definition alias_offset (f : font) (maps : list (block * trie)) (cluster : str) : option N :=
  match cluster with
  | [] => None
  | ch :: _ =>
      match find (fun bt => (b_low (fst bt) <=? ch) && (ch <=? b_high (fst bt))) maps with
      | None => None
      | Some (b, t) => tget (N.succ_pos (hash_all cluster (f_seed f))) t
      end
  end.
Definition same_found (f : font) (maps : list (block * trie)) (p : str * str) : bool :=
  match alias_offset f maps (fst p) with
  | Some off => found_at f maps (fst p) off && found_at f maps (snd p) off
  | None => false
  end.

Lemma same_found_ok f p :
  font_ok f -> same_found f (block_maps f) p = true ->
  exists off, glyph_for f (fst p) = Some (off, length (fst p)) /\
              glyph_for f (snd p) = Some (off, length (snd p)).
Proof.
  intros Hf. unfold same_found. destruct (alias_offset _ _ _) as [off|]; [|discriminate].
  intros H. apply andb_prop in H as [H1 H2]. exists off. split; apply found_at_ok; assumption.
Qed.

(** ** A single character is found only if it is listed (C30) *)

(** the character whose one-character hash with byte length [len] is [h] *)
Definition char_with_hash (seed h len : N) : N :=
  unscramble (N.lxor seed (unmix (N.lxor (unavalanche h) len))).

Lemma char_with_hash_ok seed c :
  seed < 2 ^ 32 -> c < 2 ^ 32 ->
  char_with_hash seed (hash_all [c] seed) (len_utf8 c) = c.
Proof.
  intros Hs Hc. unfold char_with_hash, hash_all. cbn [fold_left str_len].
  pose proof (len_utf8_pos c). rewrite N.add_0_r.
  rewrite (w32_small (len_utf8 c)) by lia.
  rewrite unavalanche_ok by (apply lxor_u32; [apply mix_lt|lia]).
  rewrite N.lxor_assoc, N.lxor_nilpotent, N.lxor_0_r.
  rewrite unmix_ok by assumption.
  rewrite <- N.lxor_assoc, N.lxor_nilpotent, N.lxor_0_l.
  apply unscramble_ok; assumption.
Qed.

Definition hash_listed (seed low high : N) (singles : trie) (lens : list N) (h : N) : bool :=
  forallb (fun len =>
    let c := char_with_hash seed h len in
    if (low <=? c) && (c <=? high) && (len_utf8 c =? len) then tmem c singles else true) lens.

Definition block_lens (b : block) : list N :=
  filter (fun len => (len_utf8 (b_low b) <=? len) && (len <=? len_utf8 (b_high b))) [1; 2; 3; 4].

Definition singles_only (f : font) (singles : trie) : bool :=
  (f_seed f <? 2 ^ 32) &&
  forallb (fun b => forallb (hash_listed (f_seed f) (b_low b) (b_high b) singles (block_lens b)) (b_hash b)) (f_blocks f).

Lemma len_utf8_mono a b : a <= b -> len_utf8 a <= len_utf8 b.
Proof.
  intros. unfold len_utf8.
  destruct (N.ltb_spec a 128), (N.ltb_spec b 128), (N.ltb_spec a 2048), (N.ltb_spec b 2048),
    (N.ltb_spec a 65536), (N.ltb_spec b 65536); lia.
Qed.

(** what the limits of a block can match in a string *)
Lemma match_limits_in f b s limits off n :
  match_limits f b s limits = Some (off, n) ->
  exists l k, In l limits /\ n = Nat.min (N.to_nat l) (length s) /\
    index_of (hash_all (firstn n s) (f_seed f)) (b_hash b) = Some k /\ off = nth k (b_offset b) 0.
Proof.
  induction limits as [|lim rest IH]; [discriminate|].
  cbn [match_limits]. rewrite grapheme_cluster_spec. cbn [fst]. intros E.
  destruct (index_of (hash_all (firstn (N.to_nat lim) s) (f_seed f)) (b_hash b)) as [k|] eqn:Ek.
  - injection E as <- <-. exists lim, k. split; [left; reflexivity|].
    split; [reflexivity|]. rewrite firstn_min. auto.
  - destruct (IH E) as (l & k & Hl & H). exists l, k. split; [right; exact Hl|exact H].
Qed.

Lemma singles_only_hash f l b c :
  singles_only f (tset l) = true -> c < 2 ^ 32 -> In b (f_blocks f) -> b_low b <= c <= b_high b ->
  In (hash_all [c] (f_seed f)) (b_hash b) -> In c l.
Proof.
  unfold singles_only. intros H Hc Hin Hr Ek. apply andb_prop in H as [Hseed H]. apply N.ltb_lt in Hseed.
  rewrite forallb_forall in H. specialize (H b Hin). rewrite forallb_forall in H.
  specialize (H _ Ek). unfold hash_listed in H. rewrite forallb_forall in H.
  specialize (H (len_utf8 c)). cbv zeta in H.
  rewrite char_with_hash_ok in H by assumption.
  apply tmem_in. rewrite N.eqb_refl, andb_true_r in H.
  replace ((b_low b <=? c) && (c <=? b_high b)) with true in H by lia. apply H.
  unfold block_lens. apply filter_In. split.
  - pose proof (len_utf8_pos c).
    assert (len_utf8 c = 1 \/ len_utf8 c = 2 \/ len_utf8 c = 3 \/ len_utf8 c = 4) as [-> | [-> | [-> | ->]]] by lia;
      simpl; auto.
  - pose proof (len_utf8_mono (b_low b) c). pose proof (len_utf8_mono c (b_high b)). lia.
Qed.

Lemma singles_only_ok f l c r :
  font_ok f -> singles_only f (tset l) = true -> c < 2 ^ 32 -> glyph_for f [c] = Some r -> In c l.
Proof.
  intros Hf H Hc E.
  destruct r as [off n]. destruct (glyph_for_ok f [c] off n Hf E) as [_ Hn].
  unfold glyph_for in E. destruct (find _ (f_blocks f)) as [b|] eqn:Eb; [|discriminate].
  apply find_some in Eb as [Hin Hr].
  apply match_limits_in in E as (lim & k & _ & _ & Ek & _).
  rewrite firstn_all2 in Ek by (simpl; lia). apply index_of_some, nth_error_In in Ek.
  apply (singles_only_hash f l b c); try assumption. lia.
Qed.

(** ** Pairs of characters with a hash in a table, the first being ASCII (C31) *)

(** the state before the last character was mixed in, xor its scrambling *)
Definition before_last (h len : N) : N := unmix (N.lxor (unavalanche h) len).

Lemma before_last_eq h len : before_last h len = unmix (N.lxor (unavalanche h) len).
Proof. reflexivity. Qed.

Lemma before_last_ok l c seed :
  seed < 2 ^ 32 ->
  before_last (hash_all (l ++ [c]) seed) (w32 (str_len (l ++ [c]))) =
  N.lxor (fold_left mix l seed) (scramble c).
Proof.
  intros Hs. rewrite before_last_eq. unfold hash_all. rewrite fold_left_app. cbn [fold_left].
  rewrite unavalanche_ok by (apply lxor_u32; [apply mix_lt|apply w32_lt]).
  rewrite N.lxor_assoc, N.lxor_nilpotent, N.lxor_0_r.
  apply unmix_ok, fold_mix_lt; assumption.
Qed.

Definition pair_ends (hs : list N) : list (N * N) :=
  flat_map (fun h => let u := unavalanche h in
                     map (fun len => (len, unmix (N.lxor u (1 + len)))) [1; 2; 3; 4]) hs.

Definition pairs_only (seed : N) (hs firsts : list N) (ok : N -> N -> bool) : bool :=
  let ends := pair_ends hs in
  forallb (fun a =>
    let st := mix seed a in
    forallb (fun e =>
      let c := unscramble (N.lxor st (snd e)) in
      if (c <? 0x110000) && (len_utf8 c =? fst e) then ok a c else true) ends) firsts.

Lemma pairs_only_ok seed hs firsts ok a c :
  seed < 2 ^ 32 -> pairs_only seed hs firsts ok = true ->
  In a firsts -> a < 128 -> c < 0x110000 -> In (hash_all [a; c] seed) hs -> ok a c = true.
Proof.
  intros Hs H Ha Ha' Hc Hh. unfold pairs_only in H. cbv zeta in H.
  rewrite forallb_forall in H. specialize (H a Ha). rewrite forallb_forall in H.
  pose proof (before_last_ok [a] c seed Hs) as B. cbn [app fold_left] in B.
  pose proof (len_utf8_pos c) as Hl.
  assert (L : w32 (str_len [a; c]) = 1 + len_utf8 c).
  { cbn [str_len]. rewrite N.add_0_r. replace (len_utf8 a) with 1.
    - apply w32_small. lia.
    - unfold len_utf8. destruct (N.ltb_spec a 128); [reflexivity|lia]. }
  rewrite L in B. rewrite before_last_eq in B.
  specialize (H (len_utf8 c, N.lxor (mix seed a) (scramble c))). cbn [fst snd] in H.
  rewrite <- N.lxor_assoc, N.lxor_nilpotent, N.lxor_0_l in H.
  rewrite unscramble_ok in H by lia.
  rewrite N.eqb_refl, andb_true_r in H. destruct (N.ltb_spec c 0x110000); [|lia].
  apply H. unfold pair_ends. apply in_flat_map. exists (hash_all [a; c] seed). split; [exact Hh|].
  cbv zeta. apply in_map_iff. exists (len_utf8 c). split; [rewrite B; reflexivity|].
  assert (len_utf8 c = 1 \/ len_utf8 c = 2 \/ len_utf8 c = 3 \/ len_utf8 c = 4) as [-> | [-> | [-> | ->]]] by lia;
    simpl; auto.
Qed.

(** ** No two or three characters of an alphabet have a hash in a table *)
Definition keys_of (others : list N) (len : N) : list N :=
  map scramble (filter (fun d => len_utf8 d =? len) others).

Definition two_free (seed : N) (hs firsts others : list N) (fl : N) : bool :=
  let states := tset (map (mix seed) firsts) in
  forallb (fun len =>
    let keys := keys_of others len in
    forallb (fun h =>
      let v := unmix (N.lxor (unavalanche h) (fl + len)) in
      forallb (fun k => negb (tmem (N.lxor v k) states)) keys) hs) [1; 2; 3; 4].

Definition three_free (seed : N) (hs firsts others : list N) (fl : N) : bool :=
  let us := map unavalanche hs in
  forallb (fun len =>
    let pairs := tset (flat_map (fun a => let st := mix seed a in map (N.lxor st) (keys_of others len)) firsts) in
    forallb (fun len' =>
      let keys := keys_of others len' in
      forallb (fun u =>
        let w := unmix (N.lxor u (fl + len + len')) in
        forallb (fun k => negb (tmem (unmix (N.lxor w k)) pairs)) keys) us) [1; 2; 3; 4]) [1; 2; 3; 4].

Lemma len_utf8_cases c : In (len_utf8 c) [1; 2; 3; 4].
Proof.
  pose proof (len_utf8_pos c).
  assert (len_utf8 c = 1 \/ len_utf8 c = 2 \/ len_utf8 c = 3 \/ len_utf8 c = 4) as [-> | [-> | [-> | ->]]] by lia;
    simpl; auto.
Qed.
Lemma keys_of_in others d : In d others -> In (scramble d) (keys_of others (len_utf8 d)).
Proof. intros H. apply in_map, filter_In. rewrite N.eqb_refl. auto. Qed.
Lemma lxor_back x y : N.lxor (N.lxor x y) y = x.
Proof. rewrite N.lxor_assoc, N.lxor_nilpotent, N.lxor_0_r; reflexivity. Qed.

Lemma two_free_ok seed hs firsts others fl a d :
  seed < 2 ^ 32 -> two_free seed hs firsts others fl = true ->
  In a firsts -> len_utf8 a = fl -> In d others -> ~ In (hash_all [a; d] seed) hs.
Proof.
  intros Hs H Ha Hl Hd Hin. unfold two_free in H. cbv zeta in H.
  rewrite forallb_forall in H. specialize (H _ (len_utf8_cases d)).
  rewrite forallb_forall in H. specialize (H _ Hin).
  pose proof (before_last_ok [a] d seed Hs) as B. cbn [app fold_left] in B.
  pose proof (len_utf8_pos a). pose proof (len_utf8_pos d).
  rewrite w32_small in B by (cbn [str_len]; lia). rewrite before_last_eq in B.
  replace (str_len [a; d]) with (fl + len_utf8 d) in B by (cbn [str_len]; lia).
  rewrite B in H. rewrite forallb_forall in H. specialize (H _ (keys_of_in others d Hd)).
  rewrite lxor_back in H. apply negb_true_iff, tmem_notin in H. apply H, in_map, Ha.
Qed.

Lemma three_free_ok seed hs firsts others fl a d e :
  seed < 2 ^ 32 -> three_free seed hs firsts others fl = true ->
  In a firsts -> len_utf8 a = fl -> In d others -> In e others -> ~ In (hash_all [a; d; e] seed) hs.
Proof.
  intros Hs H Ha Hl Hd He Hin. unfold three_free in H. cbv zeta in H.
  rewrite forallb_forall in H. specialize (H _ (len_utf8_cases d)).
  rewrite forallb_forall in H. specialize (H _ (len_utf8_cases e)).
  rewrite forallb_forall in H. specialize (H _ (in_map unavalanche _ _ Hin)).
  pose proof (before_last_ok [a; d] e seed Hs) as B. cbn [app fold_left] in B.
  pose proof (len_utf8_pos a). pose proof (len_utf8_pos d). pose proof (len_utf8_pos e).
  rewrite w32_small in B by (cbn [str_len]; lia). rewrite before_last_eq in B.
  replace (str_len [a; d; e]) with (fl + len_utf8 d + len_utf8 e) in B by (cbn [str_len]; lia).
  rewrite B in H. rewrite forallb_forall in H. specialize (H _ (keys_of_in others e He)).
  rewrite lxor_back, unmix_ok in H by apply mix_lt.
  apply negb_true_iff, tmem_notin in H. apply H, in_flat_map.
  exists a. split; [exact Ha|]. cbv zeta. apply in_map. apply keys_of_in. exact Hd.
Qed.
