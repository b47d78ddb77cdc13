(** * C66: the generated texts are the templates, rendered *)
From Coq Require Import ZArith String.
From Verif Require Import Prim Str FontDefs Codegen CodegenText Render Config SpecRust MainProofs.
From Verif Require Import Template TemplateTexts TemplateProofs SpecTemplate TemplateLaws.
Local Open Scope N_scope.
Local Open Scope list_scope.

(** C66: the text of a font file is fontFileTemplate (codegen/lib/templates.go:62-167), read and
    executed as text/template does, for the computed glyph set; rendering does not fail. *)
Theorem C66_font_file : forall printable f legal img csl al text,
  generate_text printable f legal img csl al = Ret text <->
  exists pl g0 g code, pattern_list img f csl = Ret pl /\ new_glyph_set_from pl (fs_seed f) = Ret g0 /\
    code_text printable 0 pl = Ret code /\ add_aliases g0 al (fs_seed f) = Ret g /\
    render_template font_file_template (font_file_context printable f legal g code (fs_seed f)) = Ret text.
Proof.
  intros printable f legal img csl al text. rewrite generated_rendered. split.
  - destruct (pattern_list img f csl) as [pl|] eqn:E1; [|discriminate]. cbn [bind].
    destruct (new_glyph_set_from pl (fs_seed f)) as [g0|] eqn:E2; [|discriminate]. cbn [bind].
    destruct (code_text printable 0 pl) as [code|] eqn:E3; [|discriminate]. cbn [bind].
    destruct (add_aliases g0 al (fs_seed f)) as [g|] eqn:E4; [|discriminate]. cbn [bind].
    intros E. exists pl, g0, g, code. do 4 (split; [reflexivity || assumption|]). exact E.
  - intros (pl & g0 & g & code & E1 & E2 & E3 & E4 & R).
    rewrite E1. cbn [bind]. rewrite E2. cbn [bind]. rewrite E3. cbn [bind]. rewrite E4. exact R.
Qed.
Print Assumptions C66_font_file.

Theorem C66_rendering_succeeds : forall printable f legal pl al seed g0 g code,
  new_glyph_set_from pl seed = Ret g0 -> add_aliases g0 al seed = Ret g ->
  exists text, render_template font_file_template (font_file_context printable f legal g code seed) = Ret text.
Proof.
  intros printable f legal pl al seed g0 g code E0 E. eexists. apply font_file_rendered.
  unfold add_aliases in E. destruct (fold_res (add_alias seed) al (gs_index g0)) as [ix|] eqn:Ea; [|discriminate]. injection E as <-. cbn [gs_index].
  refine (aliases_distinct _ _ _ _ (set_distinct _ _ (GlyphSet [] 0 []) _ _ E0) Ea). constructor.
Qed.
Print Assumptions C66_rendering_succeeds.

(** C66: the usage message is usageTemplate (lines 50-59), rendered, and a line feed *)
Theorem C66_usage : forall printable fl im args sets jobs,
  (forall a, args <> [a; chars "--write"]) ->
  new_config fl (chars "config.json") = Ret sets -> fonts fl sets = Ret jobs ->
  exists out, render_template usage_template (usage_context (chars "--write") jobs) = Ret out /\
    go_main printable fl im args = Run [] (out ++ [10]) true.
Proof.
  intros printable fl im args sets jobs H E1 E2. rewrite (unconfirmed printable fl im args H).
  apply usage_printed. change config_name with (chars "config.json"). rewrite E1. exact E2.
Qed.
Print Assumptions C66_usage.

(** C66: what rendering does, for all texts: a text with actions [{{.name}}] in it gives the
    text with the values in their places *)
Theorem C66_fields : forall l b fields out,
  Forall (fun an => snd an <> []) l -> pieces_plain l -> plain b ->
  merged fields l b out -> render (merge_source l b) (Struct fields) = Ret out.
Proof. exact merge. Qed.
Print Assumptions C66_fields.

(** C66: [{{- .name -}}] also removes the white space around it *)
Theorem C66_trim : forall a w1 name w2 b fields v s, plain (a ++ w1) -> plain b -> word name -> name <> [] ->
  Forall (fun c => white c = true) w1 -> Forall (fun c => white c = true) w2 ->
  (forall t c, a = t ++ [c] -> white c = false) -> (forall c t, b = c :: t -> white c = false) ->
  said fields name v -> writes v s ->
  render (a ++ w1 ++ chars "{{- ." ++ name ++ chars " -}}" ++ w2 ++ b) (Struct fields) = Ret (a ++ s ++ b).
Proof. exact trimmed. Qed.
Print Assumptions C66_trim.

(** C66: [a{{range .name}}b{{.}}c{{end}}d] repeats the text between for each element *)
Theorem C66_range : forall a name b c d fields l methods outs,
  plain a -> plain b -> plain c -> plain d -> word name -> name <> [] ->
  said fields name (Slice l methods) -> Forall2 writes l outs ->
  render (a ++ chars "{{range ." ++ name ++ chars "}}" ++ b ++ chars "{{.}}" ++ c ++ chars "{{end}}" ++ d) (Struct fields)
  = Ret (a ++ flat_map (fun s => b ++ s ++ c) outs ++ d).
Proof. exact repeated. Qed.
Print Assumptions C66_range.

(** The rules together, in a small template *)
Definition shop : value :=
  Struct [(chars "Name", Str (chars "Corner")); (chars "Sizes", Slice [Num 10; Num 255; Num (-3)] []); (chars "None", Slice [] [])].
Example C66_case_small :
  render (chars "Shop {{.Name}}: {{range $i, $n := .Sizes -}}
  [{{$i}} {{printf ""%X"" $n}} {{ToLower $.Name}}] {{- end}}{{with $x := .None}}never{{end}}; {{len .Sizes}}.") shop
  = Ret (chars "Shop Corner: [0 A corner][1 FF corner][2 -3 corner]; 3.").
Proof. vm_compute. reflexivity. Qed.
(** Mistakes in a template, and fields that are not there, are panics *)
Example C66_case_panics :
  map (fun t => render (chars t) shop) ["{{.Nam}}"; "{{.Name"; "{{end}}"; "{{range .Sizes}}x"; "{{.Name}"; "{{$x}}"; "{{len}}"; "{{ .Name- }}"]%string
  = repeat Panic 8.
Proof. vm_compute. reflexivity. Qed.
(** A font of one glyph *)
Example C66_case_font :
  let f := FontSpec "Tiny" 8 1 0 0 "none" 7 in
  let g := GlyphSet [0x101; 0x80000000] 2 [((0, 0x7F), [Entry 123 [65] 0])] in
  match render_template font_file_template (font_file_context (fun _ => true) f (chars "// me") g (chars "1, 2,") 7) with
  | Ret text => read_rust (chars "Tiny") text
  | Panic => None
  end = Some (Constants 8 7 [Block 0 0x7F [1] [123] [0]] [1; 2]).
Proof. vm_compute. reflexivity. Qed.
