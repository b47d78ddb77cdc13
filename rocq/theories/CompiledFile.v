(** * What the bytes of demo.wasm say *)
From Coq Require Import ZArith.
From Verif Require Import Prim PrimFacts Str Geom FontDefs Webasm WebasmLogic WebasmBin DemoCode SpecCompiled DemoFile.

Definition demo_types : list (nat * nat) := [(0, 0); (1, 0); (5, 0); (0, 1); (4, 0); (2, 0); (6, 0); (3, 1)]%nat.
Definition demo_sorts : list nat := [0; 1; 2; 3; 4; 4; 5; 4; 4; 4; 4; 4; 4; 4; 4; 4; 4; 4; 4; 4; 4; 4; 4; 4; 4; 4; 4; 6; 4; 4; 4; 4; 7; 0; 0]%nat.
Definition demo_globals : list (bool * N) := [(true, 1048576); (false, 2659968); (false, 2659968)].
Definition demo_exports : list (list N * N * nat) := [
  ([109; 101; 109; 111; 114; 121], 2, 0%nat);
  ([105; 110; 105; 116], 0, 0%nat);
  ([102; 114; 97; 109; 101; 95; 98; 117; 102; 95; 112; 116; 114], 0, 3%nat);
  ([95; 95; 100; 97; 116; 97; 95; 101; 110; 100], 3, 1%nat);
  ([95; 95; 104; 101; 97; 112; 95; 98; 97; 115; 101], 3, 2%nat)].
Definition demo_code : list (nat * list instr) := map (fun f => (fn_locals f, fn_body f)) demo_funcs.
Definition demo_data : list (N * list N) := [(1048576, pieces_bytes demo_pieces); (FB, words_bytes new_fr_buf)].
Definition demo_module : wmodule := WModule demo_types demo_sorts [41] demo_globals demo_exports demo_code demo_data.

Lemma head_decoded r : exists k, header_and_code (firstn (N.to_nat 18066) demo_head ++ r) = Some (k, r) /\
  forall d, k d = match whole (vec data) d with Some x => Some (WModule demo_types demo_sorts [41] demo_globals demo_exports demo_code x) | None => None end.
Proof. eexists. split; [vm_compute; reflexivity|reflexivity]. Qed.

(** ** The data section *)
Definition len {A} (l : list A) : N := fold_left (fun n _ => N.succ n) l 0.
Lemma len_from {A} (l : list A) : forall n, fold_left (fun n _ => N.succ n) l n = n + N.of_nat (length l).
Proof. induction l as [|x l IH]; intros n; cbn [fold_left length]; [lia|]. rewrite IH. lia. Qed.
Lemma len_length {A} (l : list A) : len l = N.of_nat (length l).
Proof. unfold len. rewrite len_from. lia. Qed.

Lemma words_length l : N.of_nat (length (words_bytes l)) = 4 * N.of_nat (length l).
Proof. unfold words_bytes. induction l as [|w l IH]; [reflexivity|]. cbn [flat_map le32 app length] in *. lia. Qed.

Definition piece_len (p : piece) : N := match p with Words l => 4 * len l | Bytes l => len l end.
Lemma piece_length p : N.of_nat (length (piece_bytes p)) = piece_len p.
Proof. destruct p as [l|l]; cbn [piece_bytes piece_len]; rewrite len_length; [apply words_length|reflexivity]. Qed.
Fixpoint pieces_len (l : list piece) : N := match l with [] => 0 | p :: t => piece_len p + pieces_len t end.
Lemma pieces_length l : N.of_nat (length (pieces_bytes l)) = pieces_len l.
Proof. induction l as [|p l IH]; [reflexivity|]. unfold pieces_bytes in *. cbn [flat_map pieces_len]. rewrite app_length, Nat2N.inj_add, piece_length, IH. reflexivity. Qed.

Lemma demo_length : N.of_nat (length (pieces_bytes demo_pieces)) = 1587805.
Proof. rewrite pieces_length. vm_cast_no_check (eq_refl 1587805). Qed.
Lemma fb_length : N.of_nat (length (words_bytes new_fr_buf)) = 23584.
Proof. rewrite words_length. unfold new_fr_buf. rewrite repeat_length, N2Nat.id. reflexivity. Qed.

Lemma take_app a b n : N.of_nat (length a) = n -> take n (a ++ b) = Some (a, b).
Proof.
  intros <-. unfold take. rewrite Nat2N.id, firstn_app, Nat.sub_diag, firstn_all, firstn_O, app_nil_r, N.eqb_refl.
  rewrite skipn_app, Nat.sub_diag, skipn_all. reflexivity.
Qed.

Definition data_head : list N := [0; 65; 128; 128; 192; 0; 11; 221; 244; 96].
Lemma head_parts : demo_head = firstn (N.to_nat 18066) demo_head ++ [11; 146; 173; 98] ++ 2 :: data_head.
Proof. vm_cast_no_check (eq_refl demo_head). Qed.

Theorem demo_decoded : decode demo_file = Some demo_module.
Proof.
  unfold decode, demo_file. rewrite head_parts. rewrite <- app_assoc.
  match goal with |- context [header_and_code (_ ++ ?r)] => destruct (head_decoded r) as (k & E & K) end.
  rewrite E. clear E.
  set (P := pieces_bytes demo_pieces). set (F := words_bytes new_fr_buf).
  assert (LP : N.of_nat (length P) = 1587805) by exact demo_length. assert (LF : N.of_nat (length F) = 23584) by exact fb_length.
  assert (S11 : section 11 (([11; 146; 173; 98] ++ 2 :: data_head) ++ P ++ demo_mid ++ F) = Some ((2 :: data_head) ++ P ++ demo_mid ++ F, [])).
  { rewrite <- app_assoc. unfold section. cbn [app byte]. change (11 =? 11) with true. cbn match.
    assert (U : forall t, u32 (146 :: 173 :: 98 :: t) = Some (1611410, t)) by (intros t; reflexivity). rewrite U. cbn match.
    match goal with |- take _ ?l = _ => rewrite <- (app_nil_r l) at 1 end. apply take_app.
    cbn [length]. rewrite !app_length. change (length data_head) with 10%nat. change (length demo_mid) with 10%nat. lia. }
  rewrite S11. rewrite K. unfold whole, vec. cbn [app].
  assert (U2 : forall t, u32 (2 :: t) = Some (2, t)) by (intros t; reflexivity). rewrite U2. cbn match.
  change (N.to_nat 2) with 2%nat. cbn [times].
  assert (D1 : data (data_head ++ P ++ demo_mid ++ F) = Some (1048576, P, demo_mid ++ F)).
  { unfold data. cbn [data_head app byte]. change (0 =? 0) with true. cbn match.
    assert (C : forall t, const_expr (65 :: 128 :: 128 :: 192 :: 0 :: 11 :: t) = Some (1048576, t)) by (intros t; reflexivity). rewrite C. cbn match.
    assert (V : forall t, u32 (221 :: 244 :: 96 :: t) = Some (1587805, t)) by (intros t; reflexivity). rewrite V. cbn match.
    rewrite (take_app P (demo_mid ++ F) _ LP). reflexivity. }
  rewrite D1. cbn match.
  assert (D2 : data (demo_mid ++ F) = Some (FB, F, [])).
  { unfold data. cbn [demo_mid app byte]. change (0 =? 0) with true. cbn match.
    assert (C : forall t, const_expr (65 :: 224 :: 244 :: 160 :: 1 :: 11 :: t) = Some (FB, t)) by (intros t; reflexivity). rewrite C. cbn match.
    assert (V : forall t, u32 (160 :: 184 :: 1 :: t) = Some (23584, t)) by (intros t; reflexivity). rewrite V. cbn match.
    rewrite <- (app_nil_r F) at 1. rewrite (take_app F [] _ LF). reflexivity. }
  rewrite D2. reflexivity.
Qed.

Lemma demo_functions : functions demo_module = demo_funcs.
Proof. reflexivity. Qed.

(** ** The memory at the start *)
Definition demo_memory : memory := memory_at_start demo_module.
Definition piece_at (m : memory) (a : N) (p : piece) : Prop :=
  match p with Words l => words_at m a l | Bytes l => bytes_at m a l end.
(** The tables and texts are where the code expects them *)
Definition statics (m : memory) : Prop :=
  forall k a p, nth_error demo_addrs k = Some a -> nth_error demo_pieces k = Some p -> piece_at m a p.

Lemma bytes_at_app m a l1 l2 : bytes_at m a (l1 ++ l2) -> bytes_at m a l1 /\ bytes_at m (a + N.of_nat (length l1)) l2.
Proof.
  intros H. split; intros i Hi.
  - rewrite H by (rewrite app_length; lia). apply app_nth1. exact Hi.
  - replace (a + N.of_nat (length l1) + N.of_nat i) with (a + N.of_nat (length l1 + i)) by lia.
    rewrite H by (rewrite app_length; lia). rewrite app_nth2 by lia. f_equal. lia.
Qed.

Lemma words_from_bytes m l : forall a, Forall (fun w => w < W) l -> bytes_at m a (words_bytes l) -> words_at m a l.
Proof.
  induction l as [|w l IH]; intros a F H i Hi; [cbn in Hi; lia|].
  unfold words_bytes in H. cbn [flat_map] in H. destruct (bytes_at_app _ _ _ _ H) as (H1 & H2). inversion F as [|? ? Hw F']; subst.
  destruct (N.eq_dec i 0) as [->|Hz].
  - change (nth (N.to_nat 0) (w :: l) 0) with w. rewrite N.mul_0_r, N.add_0_r.
    unfold load32. rewrite (load_div 4 m a w); [apply N.mod_small; exact Hw|].
    intros x Hx Hy. specialize (H1 (N.to_nat (x - a))). unfold le32 in H1. cbn [length] in H1.
    rewrite N2Nat.id in H1. replace (a + (x - a)) with x in H1 by lia. rewrite H1 by lia.
    assert (C : x - a = 0 \/ x - a = 1 \/ x - a = 2 \/ x - a = 3) by lia.
    destruct C as [->|[->|[->| ->]]]; cbn; try rewrite N.div_1_r; reflexivity.
  - replace (N.to_nat i) with (S (N.to_nat (i - 1))) by lia. cbn [nth].
    rewrite <- (IH (a + 4) F' H2 (i - 1)) by (cbn [length] in Hi; lia). f_equal. lia.
Qed.

Fixpoint all_small (l : list N) : bool := match l with [] => true | w :: t => if w <? 4294967296 then all_small t else false end.
Lemma all_small_ok l : all_small l = true -> Forall (fun w => w < W) l.
Proof. induction l as [|w l IH]; cbn [all_small]; [constructor|]. destruct (N.ltb_spec w 4294967296) as [H|H]; [|discriminate]. constructor; [exact H|auto]. Qed.
Definition piece_small (p : piece) : bool := match p with Words l => all_small l | Bytes l => forallb (fun x => x <? 256) l end.
Lemma demo_small : forallb piece_small demo_pieces = true.
Proof. vm_cast_no_check (eq_refl true). Qed.

Fixpoint addrs_from (a : N) (l : list piece) : list N := match l with [] => [] | p :: t => a :: addrs_from (a + piece_len p) t end.
Lemma demo_addrs_ok : addrs_from 1048576 demo_pieces = demo_addrs.
Proof. vm_cast_no_check (eq_refl demo_addrs). Qed.

Lemma pieces_placed m l : forall b, forallb piece_small l = true -> bytes_at m b (pieces_bytes l) ->
  forall k a p, nth_error (addrs_from b l) k = Some a -> nth_error l k = Some p -> piece_at m a p.
Proof.
  induction l as [|q l IH]; intros b S H k a p Ha Hp; [destruct k; discriminate Hp|].
  cbn [forallb] in S. apply andb_true_iff in S. destruct S as (S1 & S2).
  unfold pieces_bytes in H. cbn [flat_map] in H. destruct (bytes_at_app _ _ _ _ H) as (H1 & H2). rewrite piece_length in H2.
  destruct k as [|k]; cbn [nth_error addrs_from] in Ha, Hp.
  - injection Ha as <-. injection Hp as <-. destruct q as [ws|bs]; cbn [piece_at piece_bytes piece_small] in *; [|exact H1].
    apply words_from_bytes; [apply all_small_ok; exact S1|exact H1].
  - exact (IH _ S2 H2 k a p Ha Hp).
Qed.

Lemma memory_seg1 : bytes_at demo_memory 1048576 (pieces_bytes demo_pieces).
Proof.
  intros i Hi. assert (L := demo_length). unfold demo_memory, memory_at_start, demo_module. cbn [w_data demo_data fold_left].
  rewrite demo_length, fb_length.
  destruct (N.leb_spec FB (1048576 + N.of_nat i)) as [C|C]; [unfold FB in C; lia|]. cbn [andb].
  destruct (N.leb_spec 1048576 (1048576 + N.of_nat i)) as [D|D]; [|lia].
  destruct (N.ltb_spec (1048576 + N.of_nat i) (1048576 + 1587805)) as [E|E]; [|lia]. cbn [andb]. f_equal. lia.
Qed.
Lemma memory_seg2 : bytes_at demo_memory FB (words_bytes new_fr_buf).
Proof.
  intros i Hi. assert (L := fb_length). unfold demo_memory, memory_at_start, demo_module. cbn [w_data demo_data fold_left].
  rewrite demo_length, fb_length.
  destruct (N.leb_spec FB (FB + N.of_nat i)) as [C|C]; [|lia].
  destruct (N.ltb_spec (FB + N.of_nat i) (FB + 23584)) as [E|E]; [|lia]. cbn [andb]. f_equal. lia.
Qed.

Theorem demo_statics : statics demo_memory.
Proof.
  intros k a p Ha Hp. rewrite <- demo_addrs_ok in Ha.
  exact (pieces_placed demo_memory demo_pieces 1048576 demo_small memory_seg1 k a p Ha Hp).
Qed.
Theorem demo_fb : fb_at demo_memory new_fr_buf.
Proof.
  assert (H : words_at demo_memory FB new_fr_buf).
  { apply words_from_bytes; [|exact memory_seg2]. apply all_small_ok. vm_cast_no_check (eq_refl true). }
  intros i Hi. apply H. unfold new_fr_buf. rewrite repeat_length, N2Nat.id. exact Hi.
Qed.

Lemma words_bytes_ok l : Forall (fun x => x < 256) (words_bytes l).
Proof.
  unfold words_bytes. induction l as [|w l IH]; [constructor|]. cbn [flat_map]. apply Forall_app. split; [|exact IH].
  unfold le32. repeat constructor; apply N.mod_lt; discriminate.
Qed.
Lemma piece_bytes_ok p : piece_small p = true -> Forall (fun x => x < 256) (piece_bytes p).
Proof.
  destruct p as [l|l]; cbn [piece_small piece_bytes]; intros H.
  - apply words_bytes_ok.
  - apply Forall_forall. intros x Hx. apply N.ltb_lt. apply (proj1 (forallb_forall _ l) H x Hx).
Qed.
Lemma nth_ok l i : Forall (fun x => x < 256) l -> nth i l 0 < 256.
Proof. intros H. destruct (nth_in_or_default i l 0) as [I| ->]; [|lia]. exact (proj1 (Forall_forall _ l) H _ I). Qed.
Theorem demo_bytes_ok : bytes_ok demo_memory.
Proof.
  intros x. unfold demo_memory, memory_at_start, demo_module. cbn [w_data demo_data fold_left].
  match goal with |- (if ?c then _ else _) < _ => destruct c end; [apply nth_ok; exact (words_bytes_ok new_fr_buf)|].
  match goal with |- (if ?c then _ else _) < _ => destruct c end; [|reflexivity]. apply nth_ok. unfold pieces_bytes. assert (S := demo_small). revert S. generalize demo_pieces.
  induction l as [|p l IH]; cbn [forallb flat_map]; [constructor|]. intros S. apply andb_true_iff in S. destruct S as (S1 & S2).
  apply Forall_app. split; [apply piece_bytes_ok; exact S1|apply IH; exact S2].
Qed.

(** What keeps the tables *)
Definition inside (ap : N * piece) : bool := let '(a, p) := ap in (1048576 <=? a) && (a + piece_len p <=? FB).
Lemma demo_inside : forallb inside (combine demo_addrs demo_pieces) = true.
Proof. vm_cast_no_check (eq_refl true). Qed.
Lemma combine_nth_error {A B} (l : list A) (l' : list B) k x y : nth_error l k = Some x -> nth_error l' k = Some y -> In (x, y) (combine l l').
Proof.
  revert l l'. induction k as [|k IH]; intros [|a l] [|b l'] H K; cbn in *; try discriminate.
  - left. congruence.
  - right. apply (IH l l'); assumption.
Qed.
Lemma static_inside k a p : nth_error demo_addrs k = Some a -> nth_error demo_pieces k = Some p -> 1048576 <= a /\ a + piece_len p <= FB.
Proof.
  intros H K. assert (I := proj1 (forallb_forall _ _) demo_inside _ (combine_nth_error _ _ k a p H K)). unfold inside in I.
  apply andb_true_iff in I. destruct I as (I1 & I2). split; apply N.leb_le; assumption.
Qed.
Lemma statics_same m m' : statics m -> (forall a, 1048576 <= a -> a < FB -> m' a = m a) -> statics m'.
Proof.
  intros S H k a p Ha Hp. destruct (static_inside k a p Ha Hp) as (L & R). specialize (S k a p Ha Hp).
  destruct p as [l|l]; cbn [piece_at piece_len] in *; rewrite len_length in R.
  - intros i Hi. rewrite <- (S i Hi). apply load_ext. intros x Hx Hy. apply H; lia.
  - intros i Hi. rewrite <- (S i Hi). apply H; lia.
Qed.
