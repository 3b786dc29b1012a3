(** * UserTemplateSamples: a template file for the examples in PropUserTemplate.v. *)
From Verif Require Import Base Strings Tables Event Track File Utf8 Hex Disassemble Csv Template SpecTemplate TemplateProofs TemplateLoad TemplateLoadProofs TemplateSamples
  SpecUserTemplate SpecUserListing UserParseProofs UserTemplateProofs UserListingProofs.

(** Notes by name, those of the tenth channel as drums; texts cut off *)
Definition path1 (a : string) : list bytes := [str a].
Definition note_template : template :=
  Choose (Among (path1 "Channel") [9]) (Words (str "drum ") (Show (Field [str "Note"; str "Value"]) End))
    (Show (Padded 6 (Field [str "Note"; str "Name"])) End)
    (Words (str " {v=") (Show (Field (path1 "Velocity")) (Words (str "} at ") (Show (Padded 4 (Shortened (Field (path1 "Tick")) 3)) End)))).
Definition text_template : template :=
  Choose (OneOf (path1 "Text") [str "X"; str "Y Z"]) (Show (Field (path1 "Text")) (Words (str " as undefined") End))
    (Words (str "text") End) (Words (str ", length ") (Show (Length (path1 "Text")) (Words (str ": ") (Show (Aligned (path1 "Bytes")) (Words (str ";") (Show (Padded 20 (AlignedBy (path1 "Bytes") 2)) (Words (str ";") End))))))).
Definition sample_templates : list (bytes * template) := [(str "text", text_template); (str "noteon", note_template)].
Definition sample_file : bytes :=
  str "{ ""templates"": { ""noteon"": ""{{if eq .Channel 9}}drum {{.Note.Value}}{{else}}{{pad 6 .Note.Name}}{{end}} {v={{.Velocity}}} at {{pad 4 (ellipsize .Tick 3)}}""," ++
  str " ""text"": ""{{if eq .Text \""X\"" \""Y Z\""}}{{.Text}} as undefined{{else}}text{{end}}, length {{len .Text}}: {{valign .Bytes}};{{pad 20 (valign .Bytes 2)}};"" } }".

Lemma words_ok : forall s, s <> [] -> contains (s ++ [123]) [123; 123] = false -> good_words s.
Proof.
  intros s N C. split; [exact N|]. intros a b E. assert (W : within [123; 123] (s ++ [123])) by (exists a, b; exact E).
  apply within_contains in W. congruence.
Qed.

Ltac chars_ok := repeat (apply Forall_cons; [unfold name_char; lia|]); apply Forall_nil.
Ltac name_ok := split; [chars_ok|lia].
Ltac path_ok := split; [discriminate|repeat (apply Forall_cons; [name_ok|]); apply Forall_nil].
Ltac parts_ok :=
  match goal with
  | |- _ /\ _ => split; parts_ok
  | |- True => exact Logic.I
  | |- good_path _ => path_ok
  | |- good_words _ => apply words_ok; [discriminate|vm_compute; reflexivity]
  | |- good_number _ => unfold good_number; lia
  | |- good_text _ => unfold good_text; chars_ok
  | |- Forall _ [] => apply Forall_nil
  | |- Forall _ (_ :: _) => apply Forall_cons; parts_ok
  | |- _ <> _ => discriminate
  end.

Lemma sample_usable : usable sample_templates.
Proof.
  intros name T [I|[I|[]]]; injection I as <- <-; (split; [|cbn; intuition discriminate]).
  - let x := eval vm_compute in text_template in change text_template with x. cbn [good good_test good_term]. parts_ok.
  - let x := eval vm_compute in note_template in change note_template with x. cbn [good good_test good_term]. parts_ok.
Qed.

Lemma sample_fits : fits sample_templates small_smf.
Proof.
  intros e T (t & It & Ie) I. let x := eval vm_compute in (f_tracks small_smf) in change (f_tracks small_smf) with x in It.
  destruct It as [<-|[]]. cbn [t_events] in Ie.
  repeat (destruct Ie as [<-|Ie]; [cbn [e_body] in I; destruct I as [I|[I|[]]]; try (exfalso; apply (f_equal fst) in I; discriminate I);
    apply (f_equal snd) in I; cbn [snd] in I; subst T; unfold suits, note_template, text_template, test_suits, term_suits, any_field, text_field, number_field;
    repeat match goal with |- _ /\ _ => split | |- True => exact Logic.I end;
    try match goal with |- exists v front last rest, In (_, v) (fields (Event _ _ (?x :: ?r) _ _ _)) /\ _ =>
      exists (VList (x :: r)), [], x, r; split; [right; right; left; reflexivity|]; split; [reflexivity|]; split; [constructor|lia] end;
    try match goal with |- exists v bs, In (_, v) (fields (Event _ _ _ _ _ (TextEvent _ ?s))) /\ _ => exists (VText s), s; split; [|reflexivity] end;
    repeat eexists; cbn [fields type_field own_fields note_fields app e_body]; repeat (first [left; reflexivity|right])|]).
  destruct Ie.
Qed.

Lemma sample_read : read_templates sample_file = Ok (entries sample_templates).
Proof. vm_compute. reflexivity. Qed.

Lemma sample_listed : exists text, TemplateLoad.listing (fun l => l) sample_file (str "document") (smf_data small_smf) = Some (text, Done) /\
  forall line, In line [str "  X as undefined, length 1:          00 FF 01 01 58;   00 FF 01 01 58   ;"; str "  C4     {v=64} at 0   "] -> contains text line = true.
Proof.
  let x := eval vm_compute in (TemplateLoad.listing (fun l => l) sample_file (str "document") (smf_data small_smf)) in match x with Some (?t, _) => exists t end.
  split; [vm_compute; reflexivity|]. intros line [<-|[<-|[]]]; vm_compute; reflexivity.
Qed.
