(** Specification of the XML of the summary information. *)
From Coq Require Import ZArith String List Bool Permutation.
From Verif Require Import Base Model_Text Model_Oleprops Spec_Oleprops Spec_Layouts Spec_XmlElement.
Import ListNotations.
Open Scope string_scope.
Open Scope list_scope.
Open Scope Z_scope.

Section Summary.
  (** The text of a point in time. *)
  Variable time_text : Z -> res (list Z).

  (** An entry of the dictionary. *)
  Inductive entry_element : Z * list Z -> xtree -> Prop :=
  | ee : forall i name t attrs, decimal t i -> Permutation attrs [(zs "id", t); (zs "name", name)] ->
      entry_element (i, name) (Elem (zs "DictionaryEntry") attrs [] []).

  (** The types of values. *)
  Definition type_names : list (Z * string) := [(3, "VT_I4"); (31, "VT_LPWSTR"); (64, "VT_FILETIME")].
  Definition label_attribute (label : option (list Z)) : list (list Z * list Z) :=
    match label with Some t => [(zs "id-label", t)] | None => [] end.

  (** A property: the dictionary has its entries as children, every other
      property its type and its value as attributes. *)
  Inductive property_element : property -> xtree -> Prop :=
  | pe_dictionary : forall o label entries to attrs kids, decimal to o ->
      Permutation attrs ([(zs "id", zs "0"); (zs "offset", to)] ++ label_attribute label) ->
      Forall2 entry_element entries kids ->
      property_element (mkProperty 0 o label None (PVDict entries)) (Elem (zs "Property") attrs [] kids)
  | pe_value : forall i o label code v ti to tv type attrs, i <> 0 -> decimal ti i -> decimal to o ->
      In (code, type) type_names -> shown time_text v tv ->
      Permutation attrs ([(zs "id", ti); (zs "offset", to)] ++ label_attribute label ++
        [(zs "type", zs type); (zs "type-code", zs "0x" ++ hexadecimals false 4 code); (zs "value", tv)]) ->
      property_element (mkProperty i o label (Some code) v) (Elem (zs "Property") attrs [] []).

  (** A set of properties, by offset. *)
  Inductive set_element (s : property_set) : xtree -> Prop :=
  | se : forall g to sorted attrs kids, guid_text g (ps_fmtid s) -> decimal to (ps_offset s) ->
      Permutation attrs [(zs "fmtid", g); (zs "offset", to)] ->
      by_offset (ps_properties s) sorted -> Forall2 property_element sorted kids ->
      set_element s (Elem (zs "PropertySet") attrs [] kids).

  Inductive summary_element (s : property_set_stream) : xtree -> Prop :=
  | sye : forall v g attrs kids, decimal v (psh_version (pss_header s)) -> guid_text g (psh_clsid (pss_header s)) ->
      Permutation attrs
        [(zs "byte-order", hexadecimals false 4 (psh_byteOrder (pss_header s))); (zs "version", v);
         (zs "system-identifier", hexadecimals false 8 (psh_systemIdentifier (pss_header s))); (zs "clsid", g)] ->
      Forall2 set_element (pss_sets s) kids ->
      summary_element s (Elem (zs "HwpSummaryInfo") [] [] [Elem (zs "PropertySetStream") attrs [] kids]).
End Summary.
