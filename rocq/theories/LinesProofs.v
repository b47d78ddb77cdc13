(** * Reading index and alias files *)
From Coq Require Import ZArith.
From Verif Require Import PrimFacts Str FontDefs Codegen CodegenText SpecLines.

(** ** Lines *)
Lemma split_one s sep : ~ In sep s -> split_on sep s = [s].
Proof.
  induction s as [|b t IH]; intros H; [reflexivity|]. cbn [split_on].
  destruct (N.eqb_spec b sep) as [->|_]; [exfalso; apply H; left; reflexivity|].
  rewrite IH by (intros I; apply H; right; exact I). reflexivity.
Qed.
Lemma split_first s sep rest : ~ In sep s -> split_on sep (s ++ sep :: rest) = s :: split_on sep rest.
Proof.
  induction s as [|b t IH]; intros H; cbn [app split_on].
  - rewrite N.eqb_refl. reflexivity.
  - destruct (N.eqb_spec b sep) as [->|_]; [exfalso; apply H; left; reflexivity|].
    rewrite IH by (intros I; apply H; right; exact I). reflexivity.
Qed.
Lemma split_file lines : lines <> [] -> Forall one_line lines -> split_on 10 (file lines) = lines.
Proof.
  intros Hn F. induction F as [|l ls Hl F IH]; [contradiction|].
  destruct ls as [|l' ls']; [apply split_one; exact Hl|].
  change (file (l :: l' :: ls')) with (l ++ 10 :: file (l' :: ls')).
  rewrite split_first by exact Hl. rewrite IH by discriminate. reflexivity.
Qed.

(** ** Stripping white space *)
Lemma strip_prefix_some p s t : strip_prefix p s = Some t <-> s = p ++ t.
Proof.
  revert s. induction p as [|a p IH]; intros s; simpl.
  - split; [intros E; injection E as ->; reflexivity|intros ->; reflexivity].
  - destruct s as [|b s]; [split; discriminate|].
    destruct (N.eqb_spec a b) as [->|Hn].
    + rewrite IH. split; [intros ->; reflexivity|intros E; injection E; auto].
    + split; [discriminate|]. intros E. injection E. intros. congruence.
Qed.

Fixpoint prefixb (p s : list N) : bool :=
  match p, s with
  | [], _ => true
  | a :: p', b :: s' => (a =? b) && prefixb p' s'
  | _ :: _, [] => false
  end.
Fixpoint sameb (p s : list N) : bool :=
  match p, s with
  | [], [] => true
  | a :: p', b :: s' => (a =? b) && sameb p' s'
  | _, _ => false
  end.
Lemma sameb_eq p : forall s, sameb p s = true -> p = s.
Proof.
  induction p as [|a p IH]; intros [|b s] H; simpl in H; try discriminate; [reflexivity|].
  apply andb_prop in H. destruct H as [H1 H2]. apply N.eqb_eq in H1. subst. f_equal. apply IH; exact H2.
Qed.

(** no two prefixes of one text, unless equal *)
Definition prefix_free (ps : list (list N)) : bool :=
  forallb (fun p => forallb (fun q => sameb p q || negb (prefixb p q)) ps) ps.

Lemma both_prefixes p q t u : p ++ t = q ++ u -> prefixb p q = true \/ prefixb q p = true.
Proof.
  revert q. induction p as [|a p IH]; intros [|b q] E; simpl; auto.
  simpl in E. injection E as -> E. destruct (IH q E) as [H|H]; rewrite H, N.eqb_refl; auto.
Qed.

Lemma strip_one_in ps p t : prefix_free ps = true -> In p ps -> strip_one ps (p ++ t) = Some t.
Proof.
  intros PF I. unfold prefix_free in PF. rewrite forallb_forall in PF.
  assert (H : forall qs, incl qs ps -> In p qs -> strip_one qs (p ++ t) = Some t).
  { induction qs as [|q qs IH]; intros Hi Iq; [destruct Iq|]. cbn [strip_one].
    destruct (strip_prefix q (p ++ t)) as [u|] eqn:E.
    - apply strip_prefix_some in E. f_equal.
      assert (q = p) as ->.
      { assert (Iqs : In q ps) by (apply Hi; left; reflexivity).
        destruct (both_prefixes _ _ _ _ E) as [B|B].
        - pose proof (PF p I) as P1. rewrite forallb_forall in P1. specialize (P1 q Iqs).
          rewrite B, orb_false_r in P1. symmetry. apply sameb_eq. exact P1.
        - pose proof (PF q Iqs) as P1. rewrite forallb_forall in P1. specialize (P1 p I).
          rewrite B, orb_false_r in P1. apply sameb_eq. exact P1. }
      symmetry. apply app_inv_head in E. exact E.
    - destruct Iq as [->|Iq].
      + pose proof (proj2 (strip_prefix_some p (p ++ t) t) eq_refl). congruence.
      + apply IH; [|exact Iq]. intros z Iz. apply Hi. right. exact Iz. }
  apply H; [apply incl_refl|exact I].
Qed.

Lemma strip_all_done ps s fuel : strip_one ps s = None -> strip_all fuel ps s = s.
Proof. intros H. destruct fuel; simpl; [reflexivity|]. rewrite H. reflexivity. Qed.

Lemma strip_all_ok ps s : prefix_free ps = true -> strip_one ps s = None ->
  forall l fuel, Forall (fun p => In p ps) l -> (length l <= fuel)%nat -> strip_all fuel ps (concat l ++ s) = s.
Proof.
  intros PF Hs l fuel F. revert fuel. induction F as [|p l I F IH]; intros fuel L; simpl in *.
  - apply strip_all_done. exact Hs.
  - destruct fuel as [|fuel]; [lia|]. cbn [strip_all]. rewrite <- app_assoc.
    rewrite (strip_one_in ps p _ PF I). apply IH. lia.
Qed.

(** a text that starts with a byte no prefix starts with *)
Lemma strip_one_none ps b t : Forall (fun p => match p with [] => False | a :: _ => a <> b end) ps ->
  strip_one ps (b :: t) = None.
Proof.
  intros F. induction F as [|p ps Hp F IH]; [reflexivity|]. cbn [strip_one].
  destruct p as [|a p]; [contradiction|]. cbn [strip_prefix].
  destruct (N.eqb_spec a b); [contradiction|exact IH].
Qed.
Lemma strip_one_nil ps : Forall (fun p => p <> []) ps -> strip_one ps [] = None.
Proof. intros F. induction F as [|p ps Hp F IH]; [reflexivity|]. cbn [strip_one]. destruct p; [contradiction|exact IH]. Qed.

(** ** The white space of Go and of the specification *)
Lemma white_go c : white c -> In (utf8 c) go_spaces.
Proof. unfold white. intros H. simpl in H. repeat (destruct H as [<-|H]; [vm_compute; tauto|]). destruct H. Qed.

Lemma spaces_pf : prefix_free go_spaces = true.
Proof. vm_compute. reflexivity. Qed.
Lemma spaces_rev_pf : prefix_free (map (@rev N) go_spaces) = true.
Proof. vm_compute. reflexivity. Qed.

Definition first_byte (p : list N) : N := match p with [] => 0 | b :: _ => b end.
Definition outside_names (b : N) : bool :=
  negb (((48 <=? b) && (b <=? 57)) || ((65 <=? b) && (b <=? 70)) || ((97 <=? b) && (b <=? 102)) || (b =? 45)).
Lemma outside_ok b c : outside_names b = true -> name_byte c -> b <> c.
Proof. unfold outside_names, name_byte. intros H Hc ->. lia. Qed.

Lemma strip_none_names ps s : forallb (fun p => match p with [] => false | b :: _ => outside_names b end) ps = true ->
  (s = [] \/ name_byte (first_byte s)) -> strip_one ps s = None.
Proof.
  intros H Hs. rewrite forallb_forall in H. destruct s as [|b t].
  - apply strip_one_nil. apply Forall_forall. intros p I -> . specialize (H [] I). discriminate.
  - destruct Hs as [Hs|Hs]; [discriminate|]. apply strip_one_none. apply Forall_forall. intros p I.
    specialize (H p I). destruct p as [|a p]; [discriminate|]. exact (outside_ok a b H Hs).
Qed.
Lemma spaces_first : forallb (fun p => match p with [] => false | b :: _ => outside_names b end) go_spaces = true.
Proof. vm_compute. reflexivity. Qed.
Lemma spaces_last : forallb (fun p => match p with [] => false | b :: _ => outside_names b end) (map (@rev N) go_spaces) = true.
Proof. vm_compute. reflexivity. Qed.

Lemma blank_concat s : blank s -> exists l, Forall (fun p => In p go_spaces) l /\ s = concat l.
Proof.
  intros (cs & F & ->). exists (map utf8 cs). split; [|reflexivity].
  rewrite Forall_map. eapply Forall_impl; [|exact F]. exact white_go.
Qed.
Lemma concat_len ps (l : list (list N)) : forallb (fun p => match p with [] => false | _ => true end) ps = true ->
  Forall (fun p => In p ps) l -> (length l <= length (concat l))%nat.
Proof.
  intros H F. rewrite forallb_forall in H. induction F as [|p l I F IH]; simpl; [lia|].
  rewrite app_length. specialize (H p I). destruct p; [discriminate|]. simpl. lia.
Qed.
Lemma rev_concat_rev (l : list (list N)) : rev (concat l) = concat (map (@rev N) (rev l)).
Proof.
  induction l as [|a l IH]; [reflexivity|]. simpl. rewrite rev_app_distr, IH, map_app, concat_app. simpl.
  rewrite app_nil_r. reflexivity.
Qed.

Lemma trim_blank before content after : blank before -> blank after ->
  content = [] \/ (name_byte (first_byte content) /\ name_byte (first_byte (rev content))) ->
  trim_space (before ++ content ++ after) = content.
Proof.
  intros Hb Ha Hc. destruct (blank_concat _ Hb) as (lb & Fb & ->). destruct (blank_concat _ Ha) as (la & Fa & ->).
  assert (Ne : forallb (fun p : list N => match p with [] => false | _ => true end) go_spaces = true) by reflexivity.
  unfold trim_space. destruct Hc as [->|[H1 H2]].
  - cbn [app]. assert (strip_all (length (concat lb ++ concat la)) go_spaces (concat lb ++ concat la) = []) as ->.
    { rewrite <- concat_app, <- (app_nil_r (concat (lb ++ la))).
      assert (Forall (fun p => In p go_spaces) (lb ++ la)) by (apply Forall_app; split; assumption).
      apply strip_all_ok; [exact spaces_pf|reflexivity|assumption|].
      rewrite app_nil_r. apply (concat_len go_spaces); [exact Ne|assumption]. }
    reflexivity.
  - assert (strip_all (length (concat lb ++ content ++ concat la)) go_spaces (concat lb ++ content ++ concat la)
            = content ++ concat la) as ->.
    { apply strip_all_ok; [exact spaces_pf| |exact Fb|].
      - apply strip_none_names; [exact spaces_first|]. right.
        destruct content as [|b t]; [|exact H1]. exfalso. simpl in H1. unfold name_byte in H1. lia.
      - rewrite app_length. pose proof (concat_len go_spaces lb Ne Fb). lia. }
    rewrite rev_app_distr, rev_concat_rev.
    rewrite strip_all_ok.
    + apply rev_involutive.
    + exact spaces_rev_pf.
    + apply strip_none_names; [exact spaces_last|]. right. exact H2.
    + rewrite Forall_map. apply Forall_rev. eapply Forall_impl; [|exact Fa]. intros p I. apply in_map. exact I.
    + rewrite map_length, rev_length, app_length. pose proof (concat_len go_spaces la Ne Fa). lia.
Qed.

(** ** One line *)
Lemma blank_no s b : blank s -> existsb (fun p => existsb (N.eqb b) p) (map utf8 [9; 11; 12; 13; 32; 0x85; 0xA0; 0x1680; 0x2000; 0x2001; 0x2002; 0x2003; 0x2004;
        0x2005; 0x2006; 0x2007; 0x2008; 0x2009; 0x200A; 0x2028; 0x2029; 0x202F; 0x205F; 0x3000]) = false -> ~ In b s.
Proof.
  intros (cs & F & ->) H I. apply in_concat in I. destruct I as (p & Ip & Ib).
  apply in_map_iff in Ip. destruct Ip as (c & <- & Ic). rewrite Forall_forall in F. specialize (F c Ic).
  assert (T : existsb (fun p => existsb (N.eqb b) p) (map utf8 [9; 11; 12; 13; 32; 0x85; 0xA0; 0x1680; 0x2000; 0x2001; 0x2002; 0x2003; 0x2004;
        0x2005; 0x2006; 0x2007; 0x2008; 0x2009; 0x200A; 0x2028; 0x2029; 0x202F; 0x205F; 0x3000]) = true).
  { apply existsb_exists. exists (utf8 c). split; [apply in_map; exact F|].
    apply existsb_exists. exists b. split; [exact Ib|apply N.eqb_refl]. }
  congruence.
Qed.
Lemma blank_no_hash s : blank s -> ~ In 35 s.
Proof. intros H. apply (blank_no s 35 H). vm_compute. reflexivity. Qed.
Lemma blank_no_newline s : blank s -> ~ In 10 s.
Proof. intros H. apply (blank_no s 10 H). vm_compute. reflexivity. Qed.

Lemma before_hash_comment s remark : ~ In 35 s -> comment remark -> before_hash (s ++ remark) = s.
Proof.
  intros H C. induction s as [|b t IH]; cbn [app before_hash].
  - destruct C as [->|(text & -> & _)]; reflexivity.
  - destruct (N.eqb_spec b 35) as [->|_]; [exfalso; apply H; left; reflexivity|].
    f_equal. apply IH. intros I. apply H. right. exact I.
Qed.

Lemma line_text_ok content line : ~ In 35 content ->
  content = [] \/ (name_byte (first_byte content) /\ name_byte (first_byte (rev content))) ->
  line_with content line -> line_text line = content.
Proof.
  intros H35 Hc (before & after & remark & Hb & Ha & Hr & ->). unfold line_text.
  rewrite !app_assoc, before_hash_comment; [|intros I|exact Hr].
  - rewrite <- app_assoc. apply trim_blank; assumption.
  - apply in_app_or in I. destruct I as [I|I]; [|apply (blank_no_hash _ Ha); exact I].
    apply in_app_or in I. destruct I as [I|I]; [apply (blank_no_hash _ Hb); exact I|contradiction].
Qed.
Lemma line_with_one content line : ~ In 10 content -> line_with content line -> one_line line.
Proof.
  intros H (before & after & remark & Hb & Ha & Hr & ->) I.
  apply in_app_or in I. destruct I as [I|I]; [exact (blank_no_newline _ Hb I)|].
  apply in_app_or in I. destruct I as [I|I]; [exact (H I)|].
  apply in_app_or in I. destruct I as [I|I]; [exact (blank_no_newline _ Ha I)|].
  destruct Hr as [->|(text & -> & Ht)]; [destruct I|]. destruct I as [I|I]; [discriminate|exact (Ht I)].
Qed.

Lemma name_ends s : name s -> name_byte (first_byte s) /\ name_byte (first_byte (rev s)).
Proof.
  intros [Hn F]. split.
  - destruct F; [contradiction|assumption].
  - apply Forall_rev in F. destruct (rev s) as [|b t] eqn:E.
    + exfalso. apply Hn. rewrite <- (rev_involutive s), E. reflexivity.
    + inversion F; assumption.
Qed.
Lemma name_no s b : name s -> outside_names b = true -> ~ In b s.
Proof.
  intros [_ F] H I. rewrite Forall_forall in F. specialize (F b I). exact (outside_ok b b H F eq_refl).
Qed.

Lemma name_line n line : name n -> line_with n line -> line_text line = n.
Proof.
  intros Hn. apply line_text_ok; [apply (name_no n 35 Hn eq_refl)|]. right. apply name_ends. exact Hn.
Qed.
Lemma empty_line line : line_with [] line -> line_text line = [].
Proof. apply line_text_ok; [intros []|left; reflexivity]. Qed.

Lemma pair_line c a line : name c -> name a -> line_with (c ++ 32 :: a) line -> line_text line = c ++ 32 :: a.
Proof.
  intros Hc Ha. apply line_text_ok.
  - intros I. apply in_app_or in I. destruct I as [I|[I|I]]; [|discriminate|].
    + exact (name_no c 35 Hc eq_refl I).
    + exact (name_no a 35 Ha eq_refl I).
  - right. split.
    + destruct (name_ends c Hc) as [H _]. destruct c; [destruct Hc; contradiction|exact H].
    + rewrite rev_app_distr. cbn [rev]. destruct (name_ends a Ha) as [_ H].
      destruct (rev a) as [|b t] eqn:E; [|exact H].
      exfalso. destruct Ha as [Ha _]. apply Ha. rewrite <- (rev_involutive a), E. reflexivity.
Qed.

(** ** Positions *)
Lemma map_loop_at columns lines : forall row col i cs, (0 < columns)%Z -> (0 <= col < columns)%Z ->
  nth_error (emoji_map_loop columns lines row col) i = Some cs ->
  cs_row cs = (row + (col + Z.of_nat i) / columns)%Z /\ cs_col cs = ((col + Z.of_nat i) mod columns)%Z.
Proof.
  induction lines as [|l lines IH]; intros row col i cs Hp Hc E; [destruct i; discriminate|].
  cbn [emoji_map_loop] in E. destruct (line_text l) as [|b t]; [apply IH; assumption|].
  destruct i as [|i].
  - injection E as <-. cbn [cs_row cs_col]. rewrite Z.add_0_r, Z.div_small, Z.mod_small by lia. lia.
  - cbn [nth_error] in E. destruct (Z.eqb_spec (col + 1) columns) as [Ec|Ec].
    + apply IH in E; [|lia|lia]. destruct E as [-> ->].
      replace (col + Z.of_nat (S i))%Z with (Z.of_nat i + 1 * columns)%Z by lia.
      rewrite Z.div_add, Z.mod_add by lia. rewrite Z.add_0_l. lia.
    + apply IH in E; [|lia|lia]. destruct E as [-> ->].
      replace (col + 1 + Z.of_nat i)%Z with (col + Z.of_nat (S i))%Z by lia. split; reflexivity.
Qed.

Lemma map_positions columns text i cs : (0 < columns)%Z ->
  nth_error (emoji_map columns text) i = Some cs -> (cs_row cs, cs_col cs) = row_major columns i.
Proof.
  intros Hp E. apply map_loop_at in E; [|exact Hp|lia]. destruct E as [-> ->]. reflexivity.
Qed.

Lemma map_loop_flat columns lines : forall row col i cs, (columns <= 0)%Z -> (0 <= col)%Z ->
  nth_error (emoji_map_loop columns lines row col) i = Some cs ->
  cs_row cs = row /\ cs_col cs = (col + Z.of_nat i)%Z.
Proof.
  induction lines as [|l lines IH]; intros row col i cs Hp Hc E; [destruct i; discriminate|].
  cbn [emoji_map_loop] in E. destruct (line_text l) as [|b t]; [apply IH; assumption|].
  destruct i as [|i].
  - injection E as <-. cbn [cs_row cs_col]. lia.
  - cbn [nth_error] in E. destruct (Z.eqb_spec (col + 1) columns) as [Ec|Ec]; [lia|].
    apply IH in E; [|lia|lia]. destruct E as [-> ->]. lia.
Qed.
Lemma map_positions_flat columns text i cs : (columns <= 0)%Z ->
  nth_error (emoji_map columns text) i = Some cs -> cs_row cs = 0%Z /\ cs_col cs = Z.of_nat i.
Proof. intros Hp E. apply map_loop_flat in E; [|exact Hp|lia]. destruct E as [-> ->]. split; lia. Qed.

(** ** Whole files *)
Lemma index_lines_one ns ls : index_lines ns ls -> Forall one_line ls.
Proof.
  induction 1; constructor; try assumption.
  - eapply line_with_one; [|eassumption]. apply (name_no n 10); [assumption|reflexivity].
  - eapply line_with_one; [|eassumption]. intros [].
Qed.
Lemma index_loop_names columns ns ls : index_lines ns ls ->
  forall row col, map cs_hex (emoji_map_loop columns ls row col) = ns.
Proof.
  induction 1 as [|n l ns ls Hn Hl H IH|l ns ls Hl H IH]; intros row col; cbn [emoji_map_loop]; [reflexivity| |].
  - rewrite (name_line n l Hn Hl). destruct n as [|b t]; [destruct Hn; contradiction|].
    cbn [map cs_hex]. f_equal. destruct (_ =? _)%Z; apply IH.
  - rewrite (empty_line l Hl). apply IH.
Qed.

Lemma index_read columns ns ls : ls <> [] -> index_lines ns ls ->
  map cs_hex (emoji_map columns (file ls)) = ns.
Proof.
  intros Hn H. unfold emoji_map. rewrite split_file; [|exact Hn|exact (index_lines_one _ _ H)].
  apply index_loop_names. exact H.
Qed.

Lemma alias_lines_one ps ls : alias_lines ps ls -> Forall one_line ls.
Proof.
  induction 1; constructor; try assumption.
  - eapply line_with_one; [|eassumption]. intros I. apply in_app_or in I. destruct I as [I|[I|I]]; [|discriminate|].
    + apply (name_no c 10) in I; [assumption|assumption|reflexivity].
    + apply (name_no a 10) in I; [assumption|assumption|reflexivity].
  - eapply line_with_one; [|eassumption]. intros [].
Qed.

Lemma aliases_read ps ls : ls <> [] -> alias_lines ps ls ->
  emoji_aliases_of (file ls) = map (fun p => GCAlias (fst p) (snd p)) ps.
Proof.
  intros Hn H. unfold emoji_aliases_of. rewrite split_file; [|exact Hn|exact (alias_lines_one _ _ H)].
  clear Hn. induction H as [|c a l ps ls Hc Ha Hl H IH|l ps ls Hl H IH]; [reflexivity| |].
  - cbn [flat_map map fst snd]. rewrite IH. unfold alias_line. rewrite (pair_line c a l Hc Ha Hl).
    rewrite split_first by apply (name_no c 32 Hc eq_refl).
    rewrite split_one by apply (name_no a 32 Ha eq_refl).
    destruct c; [destruct Hc; contradiction|]. destruct a; [destruct Ha; contradiction|]. reflexivity.
  - cbn [flat_map]. rewrite IH. unfold alias_line. rewrite (empty_line l Hl). reflexivity.
Qed.
