(** C73 and C74: the JSON of records and of models. *)
From Coq Require Import ZArith String List Bool Lia.
From Verif Require Import Base Model_Text Model_Record Model_Bintype Model_Layouts Model_Models Model_Json Spec_Text Spec_Record Spec_Json Proof_Json Proof_JsonModels.
Import ListNotations.
Open Scope Z_scope.

(** ** C73 *)

Theorem C73_unique : forall s v v', is_json s v -> is_json s v' -> v = v'.
Proof. exact json_unique. Qed.
Print Assumptions C73_unique.

Theorem C73_records : forall float_repr, (forall bits, finite bits -> exists j, number_says (float_repr bits) j) ->
  forall b sel rs, all_bytes b -> select_records sel (read_records (open_bytes b)) = (rs, Finished) -> rs <> [] ->
  exists chunks js, records_json float_repr (select_records sel (read_records (open_bytes b))) = (chunks, Finished) /\ is_json (concat chunks) (JA js) /\
    Forall2 (fun r j => exists n, r_seqno r = Some n /\ record_says r n j) rs js.
Proof. intros fr FO b sel rs B E N. rewrite E. exact (records_written fr FO b sel rs B E N). Qed.
Print Assumptions C73_records.

Theorem C73_records_recovered : forall float_repr, (forall bits, finite bits -> exists j, number_says (float_repr bits) j) ->
  forall b b' sel sel' rs rs' chunks chunks', all_bytes b -> all_bytes b' ->
  select_records sel (read_records (open_bytes b)) = (rs, Finished) -> select_records sel' (read_records (open_bytes b')) = (rs', Finished) -> rs <> [] -> rs' <> [] ->
  records_json float_repr (rs, Finished) = (chunks, Finished) -> records_json float_repr (rs', Finished) = (chunks', Finished) ->
  concat chunks = concat chunks' -> rs = rs'.
Proof. intros fr FO b b' sel sel' rs rs' chunks chunks' B B' E E' N N' J J'. exact (records_determined fr b b' sel sel' rs rs' chunks chunks' FO B B' E E' N N' J J'). Qed.
Print Assumptions C73_records_recovered.

Definition lines (l : list string) : list Z := join [10] (map zs l).

(** Two records; the text of them. *)
Example C73_case :
  let b := [66; 0; 32; 0; 65; 200; 255; 7; 16; 0; 7] in
  snd (read_records (open_bytes b)) = Finished /\
  exists chunks, records_json (fun _ => zs "0.0") (select_records SelAll (read_records (open_bytes b))) = (chunks, Finished) /\
    concat chunks = lines ["["; "{"; "  ""level"": 0,"; "  ""payload"": ["; "    ""41 c8"""; "  ],"; "  ""seqno"": 0,"; "  ""size"": 2,"; "  ""tagid"": 66,"; "  ""tagname"": ""HWPTAG_PARA_HEADER"""; "},";
                            "{"; "  ""level"": 1,"; "  ""payload"": ["; "    ""07"""; "  ],"; "  ""seqno"": 1,"; "  ""size"": 1,"; "  ""tagid"": 1023,"; "  ""tagname"": ""HWPTAG1007"""; "}"; "]"]%string.
Proof. split; [vm_compute; reflexivity|]. eexists. split; vm_compute; reflexivity. Qed.
Example C73_says_case :
  is_json (zs "[{""a"": [1, -20.5e+3, true], ""b"": ""x\u000a\\""}]")
    (JA [JO [([97], JA [JN 1; JR (zs "-20.5e+3"); JTrue]); ([98], JS [120; 10; 92])]]).
Proof.
  exists []. split; [|reflexivity]. apply rd_array. eapply ri_last; [apply rd_object; eapply rm_more|].
  - reflexivity.
  - apply (su_plain 97); [lia|lia|lia|apply su_close].
  - reflexivity.
  - reflexivity.
  - apply rd_array. eapply ri_more; [| |eapply ri_more; [| |eapply ri_last]].
    + eapply (rd_number (zs "1, -20.5e+3, true], ""b"": ""x\u000a\\""}]")). apply ns_integer. apply (it_natural [49]). repeat split; discriminate.
    + reflexivity.
    + eapply (rd_number (zs "-20.5e+3, true], ""b"": ""x\u000a\\""}]")).
      apply (ns_real (zs "-20") (-20) (zs ".5") (zs "e+3")); [apply (it_negative (zs "20")); repeat split; discriminate|apply (ft_some (zs "5")); split; [discriminate|reflexivity]| |discriminate].
      apply (et_some 101 [43] [51]); [left; reflexivity|right; left; reflexivity|split; [discriminate|reflexivity]].
    + reflexivity.
    + apply rd_true.
    + reflexivity.
  - reflexivity.
  - eapply rm_last.
    + reflexivity.
    + apply (su_plain 98); [lia|lia|lia|apply su_close].
    + reflexivity.
    + reflexivity.
    + apply rd_string. apply (su_plain 120); [lia|lia|lia|]. apply (su_hex 48 48 48 97 0 0 0 10); try reflexivity. apply (su_short 92 92); [cbn; auto|]. apply su_close.
    + reflexivity.
  - reflexivity.
Qed.
(** Not JSON: a missing opening bracket (an empty array is written so), and a
    number that is none. *)
Example C73_not_json_case : (forall v, ~ is_json [10; 93] v) /\ (forall v, ~ is_json (zs "[1, NaN]") v).
Proof.
  split; intros v H; [|apply json_plain in H; discriminate]. destruct H as (r & H & _). cbn in H. apply reads_not_close in H. exact H.
Qed.

(** ** C74 *)

Theorem C74_models : forall float_repr, (forall bits, finite bits -> exists j, number_says (float_repr bits) j) ->
  forall b fuel version ms, all_bytes b -> stream_models fuel version (read_records (open_bytes b)) = (ms, Finished) -> ms <> [] ->
  Forall (fun rm => all_finite (VDict (m_content (snd rm)))) ms ->
  exists chunks js, models_json float_repr (stream_models fuel version (read_records (open_bytes b))) = (chunks, Finished) /\ is_json (concat chunks) (JA js) /\
    Forall2 (fun rm j => exists n, r_seqno (fst rm) = Some n /\ model_says float_repr rm n j) ms js.
Proof. intros fr FO b fuel version ms B E N F. rewrite E. exact (models_written fr FO b fuel version ms B E N F). Qed.
Print Assumptions C74_models.

Theorem C74_treegroup : forall float_repr, (forall bits, finite bits -> exists j, number_says (float_repr bits) j) ->
  forall b fuel version n ms, all_bytes b -> treegroup_models fuel version n (read_records (open_bytes b)) = (ms, Finished) -> ms <> [] ->
  Forall (fun rm => all_finite (VDict (m_content (snd rm)))) ms ->
  exists chunks js, models_json float_repr (treegroup_models fuel version n (read_records (open_bytes b))) = (chunks, Finished) /\ is_json (concat chunks) (JA js) /\
    Forall2 (fun rm j => exists n, r_seqno (fst rm) = Some n /\ model_says float_repr rm n j) ms js.
Proof. intros fr FO b fuel version n ms B E N F. rewrite E. exact (treegroup_written fr FO b fuel version n ms B E N F). Qed.
Print Assumptions C74_treegroup.

(** The text is JSON only if all numbers are finite. *)
Theorem C74_only_if_finite : forall float_repr, (forall bits, finite bits -> exists j, number_says (float_repr bits) j) ->
  forall b fuel version ms chunks v, all_bytes b -> stream_models fuel version (read_records (open_bytes b)) = (ms, Finished) ->
  models_json float_repr (ms, Finished) = (chunks, Finished) -> is_json (concat chunks) v -> Forall (fun rm => all_finite (VDict (m_content (snd rm)))) ms.
Proof. intros fr FO b fuel version ms chunks v B E EM. exact (models_only_if_finite fr FO b fuel version ms chunks Finished v B E EM). Qed.
Print Assumptions C74_only_if_finite.

(** A shape whose matrix holds six numbers that are none: the text is not JSON. *)
Definition nan_shape : list Z :=
  [71; 0; 64; 0] ++ zs "xxxx" ++ [76; 4; 0; 6] ++ zs "xxxx" ++ List.repeat 0 44 ++ concat (List.repeat [0; 0; 0; 0; 0; 0; 248; 127] 6).
Theorem C74_nan_refuted : all_bytes nan_shape /\ exists ms, stream_models 300 [5; 0; 0; 0] (read_records (open_bytes nan_shape)) = (ms, Finished) /\ ms <> [] /\
  forall float_repr chunks, models_json float_repr (ms, Finished) = (chunks, Finished) -> forall v, ~ is_json (concat chunks) v.
Proof.
  split; [let x := eval vm_compute in nan_shape in change nan_shape with x; repeat (apply Forall_cons; [unfold is_byte; lia|]); apply Forall_nil|]. eexists. split; [vm_compute; reflexivity|]. split; [discriminate|].
  intros fr chunks E v H. apply json_plain in H. vm_compute in E. injection E as E. subst chunks. vm_compute in H. discriminate.
Qed.
Print Assumptions C74_nan_refuted.

(** A paragraph text and what is left of an unknown record, as JSON. *)
Example C74_case :
  let b := [67; 0; 128; 0; 65; 0; 92; 213; 34; 0; 13; 0; 255; 7; 16; 0; 7] in
  let ms := stream_models 300 [5; 0; 0; 0] (read_records (open_bytes b)) in
  snd ms = Finished /\ Forall (fun rm => all_finite (VDict (m_content (snd rm)))) (fst ms) /\
  exists chunks, models_json (fun _ => zs "0.0") ms = (chunks, Finished) /\
    concat chunks = lines ["["; "{"; "  ""content"": {"; "    ""chunks"": ["; "      ["; "        ["; "          0,"; "          3"; "        ],"; "        ""A\ud55c\"""""; "      ],";
      "      ["; "        ["; "          3,"; "          4"; "        ],"; "        {"; "          ""code"": 13"; "        }"; "      ]"; "    ]"; "  },";
      "  ""level"": 0,"; "  ""payload"": ["; "    ""41 00 5c d5 22 00 0d 00"""; "  ],"; "  ""seqno"": 0,"; "  ""size"": 8,"; "  ""tagid"": 67,"; "  ""tagname"": ""HWPTAG_PARA_TEXT"","; "  ""type"": ""ParaText"""; "},";
      "{"; "  ""content"": {},"; "  ""level"": 1,"; "  ""payload"": ["; "    ""07"""; "  ],"; "  ""seqno"": 1,"; "  ""size"": 1,"; "  ""tagid"": 1023,"; "  ""tagname"": ""HWPTAG1007"",";
      "  ""type"": ""UnknownTagModel"","; "  ""unparsed"": ["; "    ""07"""; "  ]"; "}"; "]"]%string.
Proof. split; [vm_compute; reflexivity|]. split; [vm_compute; repeat constructor|]. eexists. split; vm_compute; reflexivity. Qed.
(** The hypothesis on floating point texts can be met. *)
Example C74_float_case : forall bits, finite bits -> exists j, number_says ((fun _ => zs "0.0") bits) j.
Proof.
  intros bits _. exists (JR (zs "0.0")). apply (ns_real [48] 0 [46; 48] []); [apply (it_natural [48]); repeat split; try discriminate; auto|apply (ft_some [48]); split; [discriminate|reflexivity]|constructor|discriminate].
Qed.
