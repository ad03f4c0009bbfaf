(** Proofs about the ODT package writer. *)
From Coq Require Import ZArith String List Bool Lia.
From Verif Require Import Base BaseFacts Model_Text Model_XmlText Spec_XmlText Proof_XmlText Model_Odt Spec_Odt.
Import ListNotations.
Open Scope string_scope.
Open Scope list_scope.
Open Scope Z_scope.

(** ** Names *)

Lemma xml_char_scalar : forall c, xml_char c -> scalar c.
Proof. unfold xml_char, scalar. intros c H. lia. Qed.

Lemma xml_char_nonzero : forall c, xml_char c -> c <> 0.
Proof. unfold xml_char. intros c H. lia. Qed.

Lemma zip_name_id : forall s, Forall xml_char s -> zip_name s = s.
Proof.
  induction 1 as [|c s Hc Hs IH]; [reflexivity|]. cbn [zip_name]. apply xml_char_nonzero in Hc.
  destruct (c =? 0) eqn:E; [apply Z.eqb_eq in E; contradiction|now rewrite IH].
Qed.

Lemma utf8_char_len : forall c b, utf8_char c = Ok b -> zlen b <= 4.
Proof.
  intros c b H. unfold utf8_char in H.
  repeat match type of H with (if ?x then _ else _) = _ => destruct x end; try discriminate;
    injection H as <-; cbn; lia.
Qed.

Lemma utf8_encode_len : forall s b, utf8_encode s = Ok b -> zlen b <= 4 * zlen s.
Proof.
  induction s as [|c s IH]; intros b H; cbn [utf8_encode] in H.
  - injection H as <-. cbn. lia.
  - destruct (utf8_char c) as [x|] eqn:E; [|discriminate]. cbn [bind] in H.
    destruct (utf8_encode s) as [y|]; [|discriminate]. cbn [bind] in H. injection H as <-.
    pose proof (utf8_char_len _ _ E). specialize (IH y eq_refl). unfold zlen in *. rewrite app_length. cbn [length]. lia.
Qed.

Lemma scalars : forall s, Forall xml_char s -> Forall scalar s.
Proof. intros s H. eapply Forall_impl; [|exact H]. exact xml_char_scalar. Qed.

Lemma writestr_ok : forall name data p, storable name -> k_closed p = false ->
  writestr name data p = (Ok tt, mkPackage (k_entries p ++ [(name, data)]) (k_files p) false).
Proof.
  intros name data p [Hc Hl] Ho. unfold writestr. rewrite Ho, (zip_name_id _ Hc).
  destruct (utf8_roundtrip name (scalars _ Hc)) as (b & E & _). rewrite E.
  pose proof (utf8_encode_len _ _ E).
  destruct (65535 <? zlen b) eqn:L; [apply Z.ltb_lt in L; lia|reflexivity].
Qed.

Lemma insert_ok : forall data path media p, storable path -> k_closed p = false ->
  insert_stream (Ok data) path media p = (Ok tt, mkPackage (k_entries p ++ [(path, data)]) (k_files p ++ [(path, media)]) false).
Proof. intros data path media p Hs Ho. unfold insert_stream. now rewrite writestr_ok. Qed.

(** ** The manifest *)

Definition legal_file (f : list Z * list Z) : Prop := Forall xml_char (fst f) /\ Forall xml_char (snd f).

Lemma drop_nul_id : forall s, Forall xml_char s -> drop_nul s = s.
Proof.
  induction 1 as [|c s Hc Hs IH]; [reflexivity|]. unfold drop_nul, replace_char in *. cbn [flat_map]. apply xml_char_nonzero in Hc.
  destruct (c =? 0) eqn:E; [apply Z.eqb_eq in E; contradiction|now rewrite IH].
Qed.

Lemma attrs_ok : forall a : list (list Z * list Z), forallb (fun nv => forallb xml_charb (snd nv)) a = true ->
  Forall (fun nv => Forall xml_char (snd nv)) a.
Proof.
  intros a H. apply Forall_forall. intros nv Hn. rewrite forallb_forall in H. apply Forall_forall. intros c Hc.
  specialize (H _ Hn). rewrite forallb_forall in H. now apply xml_charb_ok, H.
Qed.

Lemma replace_chars : forall c r s, Forall xml_char r -> Forall xml_char s -> Forall xml_char (replace_char c r s).
Proof.
  intros c r s Hr. induction 1 as [|x s Hx Hs IH]; [constructor|]. unfold replace_char in *. cbn [flat_map].
  apply Forall_app. split; [|exact IH]. destruct (x =? c); [exact Hr|now constructor].
Qed.

Lemma chars_ok : forall s, forallb xml_charb s = true -> Forall xml_char s.
Proof. intros s H. apply Forall_forall. intros c Hc. rewrite forallb_forall in H. now apply xml_charb_ok, H. Qed.
Ltac chars := apply chars_ok; vm_compute; reflexivity.

Lemma quoteattr_chars : forall v, Forall xml_char v -> Forall xml_char (quoteattr v).
Proof.
  intros v H. assert (E : Forall xml_char (escape_entities v)).
  { unfold escape_entities, escape. repeat apply replace_chars; try assumption; chars. }
  unfold quoteattr. destruct (contains 34 _); [destruct (contains 39 _)|]; rewrite !Forall_app; (split; [chars|split; [|chars]]); try exact E.
  apply replace_chars; [chars|exact E].
Qed.

Lemma attr_text : forall n v, Forall xml_char v -> concat (attr_chunks (n, v)) = [32] ++ n ++ [61] ++ quoteattr v.
Proof.
  intros n v H. unfold attr_chunks. cbn [concat fst snd]. rewrite app_nil_r, (drop_nul_id _ (quoteattr_chars _ H)). reflexivity.
Qed.

Lemma without_nul_id : forall s, Forall xml_char s -> without_nul s = s.
Proof.
  induction 1 as [|c s Hc Hs IH]; [reflexivity|]. unfold without_nul in *. cbn [filter]. apply xml_char_nonzero in Hc.
  destruct (c =? 0) eqn:E; [apply Z.eqb_eq in E; contradiction|]. cbn [negb]. now rewrite IH.
Qed.

Definition text_of (es : list xevent) : list Z := concat (xmlevents_to_textchunks es).
Lemma text_of_app : forall a b, text_of (a ++ b) = text_of a ++ text_of b.
Proof. intros. unfold text_of, xmlevents_to_textchunks. now rewrite flat_map_app, concat_app. Qed.

Lemma start_text : forall name attrs, Forall (fun nv => Forall xml_char (snd nv)) attrs ->
  text_of [XStart name attrs] = [60] ++ name ++ flat_map (fun nv => [32] ++ fst nv ++ [61] ++ quoteattr (snd nv)) attrs ++ [62].
Proof.
  intros name attrs H. unfold text_of, xmlevents_to_textchunks. cbn [flat_map event_chunks]. rewrite app_nil_r.
  change ([[60]; name] ++ flat_map attr_chunks attrs ++ [[62]]) with ([60] :: name :: (flat_map attr_chunks attrs ++ [[62]])).
  cbn [concat]. rewrite concat_app. do 3 f_equal.
  induction H as [|[n v] attrs Hv Ha IH]; [reflexivity|]. cbn [flat_map]. rewrite concat_app, IH, (attr_text n v Hv). cbn [fst snd]. reflexivity.
Qed.

Lemma end_text : forall name, text_of [XEnd name] = [60; 47] ++ name ++ [62].
Proof. intros. unfold text_of, xmlevents_to_textchunks. cbn. reflexivity. Qed.

Lemma file_entry_text : forall path media, Forall xml_char path -> Forall xml_char media ->
  file_entry path media [] = text_of (entry_events path media []).
Proof.
  intros path media Hp Hm. unfold entry_events.
  match goal with |- _ = text_of [?a; ?b] => change [a; b] with ([a] ++ [b]) end. rewrite text_of_app, end_text, start_text.
  - reflexivity.
  - repeat constructor; cbn [snd]; assumption.
Qed.

Lemma files_text : forall files, Forall legal_file files ->
  flat_map (fun e => file_entry (fst e) (snd e) []) files = text_of (flat_map (fun f => entry_events (fst f) (snd f) []) files).
Proof.
  induction 1 as [|[p m] files [Hp Hm] Hf IH]; [reflexivity|]. cbn [flat_map fst snd] in *.
  rewrite text_of_app, IH. f_equal. now apply file_entry_text.
Qed.

Lemma manifest_is : forall files, Forall legal_file files ->
  manifest_text files = xml_declaration ++ text_of (manifest_events files).
Proof.
  intros files H. unfold manifest_text, manifest_events. rewrite (files_text files H), !text_of_app. reflexivity.
Qed.

Lemma entry_read : forall path media v r, Forall xml_char path -> Forall xml_char media -> Forall (fun nv => Forall xml_char (snd nv)) v ->
  read_back [] (entry_events path media v ++ r) = entry_events path media v ++ read_back [] r.
Proof.
  intros path media v r Hp Hm Hv. cbn [entry_events app read_back flush map fst snd]. rewrite !without_nul_id by assumption.
  f_equal. f_equal. f_equal. f_equal. rewrite <- (map_id v) at 2. apply map_ext_in. intros [n x] Hx. rewrite Forall_forall in Hv.
  cbn [fst snd]. f_equal. apply without_nul_id. exact (Hv _ Hx).
Qed.

Lemma files_read : forall files r, Forall legal_file files ->
  read_back [] (flat_map (fun f => entry_events (fst f) (snd f) []) files ++ r) =
  flat_map (fun f => entry_events (fst f) (snd f) []) files ++ read_back [] r.
Proof.
  intros files r. induction 1 as [|[p m] files [Hp Hm] Hf IH]; [reflexivity|]. cbn [flat_map fst snd] in *.
  rewrite <- !app_assoc, entry_read by auto. now rewrite IH.
Qed.

Lemma manifest_reads : forall files, Forall legal_file files -> read_back [] (manifest_events files) = manifest_events files.
Proof.
  intros files H. unfold manifest_events.
  assert (E : forall n a r, Forall (fun nv => Forall xml_char (snd nv)) a -> read_back [] ([XStart n a] ++ r) = [XStart n a] ++ read_back [] r).
  { intros n a r Ha. cbn [app read_back flush]. f_equal. f_equal. rewrite <- (map_id a) at 2. apply map_ext_in. intros [k x] Hx.
    rewrite Forall_forall in Ha. cbn [fst snd]. f_equal. apply without_nul_id. exact (Ha _ Hx). }
  rewrite E by (apply attrs_ok; vm_compute; reflexivity). f_equal.
  rewrite entry_read by first [chars|apply attrs_ok; vm_compute; reflexivity]. f_equal.
  rewrite files_read by assumption. reflexivity.
Qed.

Lemma entries_nested : forall files st r, nested st r -> nested st (flat_map (fun f => entry_events (fst f) (snd f) []) files ++ r).
Proof. induction files as [|f files IH]; intros st r H; [exact H|]. cbn [flat_map entry_events app]. repeat constructor. now apply IH. Qed.

Lemma manifest_nested : forall files, nested [] (manifest_events files).
Proof.
  intros files. unfold manifest_events, entry_events at 1. cbn [app]. do 3 constructor. apply entries_nested. repeat constructor.
Qed.

Lemma legal_chars : forall s, Forall xml_char s -> Forall legal s.
Proof. intros s H. eapply Forall_impl; [|exact H]. intros c Hc. now right. Qed.

Ltac named := vm_compute; split; [reflexivity|repeat constructor].

Lemma entry_writable : forall path media, Forall xml_char path -> Forall xml_char media -> Forall writable (entry_events path media []).
Proof.
  intros path media Hp Hm. unfold entry_events. repeat apply Forall_cons; try apply Forall_nil; [|named].
  cbn [writable app map fst snd]. split; [named|]. split.
  - repeat constructor; vm_compute; intuition discriminate.
  - repeat apply Forall_cons; try apply Forall_nil; cbn [fst snd]; (split; [named|now apply legal_chars]).
Qed.

Lemma manifest_writable : forall files, Forall legal_file files -> Forall writable (manifest_events files).
Proof.
  intros files H. unfold manifest_events. rewrite !Forall_app. repeat split.
  - apply Forall_cons; [|apply Forall_nil]. cbn [writable map fst snd attribute]. split; [named|]. split.
    + repeat constructor; vm_compute; intuition discriminate.
    + repeat apply Forall_cons; try apply Forall_nil; cbn [fst snd]; (split; [named|apply legal_chars; chars]).
  - apply Forall_cons; [|apply Forall_cons; [named|apply Forall_nil]]. cbn [writable map fst snd attribute app]. split; [named|]. split.
    + repeat constructor; vm_compute; intuition discriminate.
    + repeat apply Forall_cons; try apply Forall_nil; cbn [fst snd]; (split; [named|apply legal_chars; chars]).
  - induction H as [|[p m] files [Hp Hm] Hf IH]; [apply Forall_nil|]. cbn [flat_map fst snd] in *. apply Forall_app. split; [now apply entry_writable|exact IH].
  - apply Forall_cons; [named|apply Forall_nil].
Qed.

Lemma sax_encode_ok : forall s b, utf8_encode s = Ok b -> sax_encode s = b.
Proof.
  induction s as [|c s IH]; intros b H; cbn [utf8_encode] in H; [injection H as <-; reflexivity|].
  unfold sax_encode in *. cbn [flat_map]. unfold encode_char at 1. destruct (utf8_char c) as [x|]; [|discriminate]. cbn [bind] in H.
  destruct (utf8_encode s) as [y|]; [|discriminate]. cbn [bind] in H. injection H as <-. now rewrite (IH y eq_refl).
Qed.

Lemma sax_encode_app : forall a b, sax_encode (a ++ b) = sax_encode a ++ sax_encode b.
Proof. intros. unfold sax_encode. apply flat_map_app. Qed.

Theorem manifest_denotes : forall files, Forall legal_file files -> denotes (manifest_xml files) (manifest_events files).
Proof.
  intros files H. pose proof (manifest_nested files) as HN. pose proof (manifest_writable files H) as HW.
  unfold manifest_xml. rewrite (manifest_is files H), sax_encode_app.
  pose proof (machine_events _ _ HN HW []) as HM. apply machine_chars in HM.
  assert (S : Forall scalar (text_of (manifest_events files))).
  { eapply Forall_impl; [|exact HM]. intros c Hc. now apply xml_char_scalar, xml_charb_ok. }
  destruct (utf8_roundtrip _ S) as (b & E & D). exists b, (text_of (manifest_events files)).
  rewrite (sax_encode_ok _ _ E). split; [f_equal; vm_compute; reflexivity|]. split; [exact D|].
  unfold text_of. rewrite document_reads_back by assumption. f_equal. now apply manifest_reads.
Qed.

(** ** Packages *)

(** The state after the insertions of some files. *)
Definition holding (files : list (list Z * list Z * list Z)) (p : package) : Prop :=
  k_entries p = map (fun f => (fst (fst f), snd f)) files /\ k_files p = map fst files /\ k_closed p = false.

Definition file_ok (f : list Z * list Z * list Z) : Prop := storable (fst (fst f)) /\ Forall xml_char (snd (fst f)).

Lemma holding_insert : forall files p path media data, holding files p -> storable path ->
  exists p', insert_stream (Ok data) path media p = (Ok tt, p') /\ holding (files ++ [(path, media, data)]) p'.
Proof.
  intros files p path media data (He & Hf & Ho) Hs. eexists. split; [apply insert_ok; assumption|].
  split; [|split]; cbn [k_entries k_files k_closed]; rewrite ?map_app, ?He, ?Hf; reflexivity.
Qed.

Lemma close_holding : forall files p, holding files p -> Forall file_ok files ->
  exists p', package_close p = (Ok tt, p') /\ finished_package files (k_entries p') /\ k_closed p' = true.
Proof.
  intros files p (He & Hf & Ho) Hok. unfold package_close.
  rewrite writestr_ok; [|split; [chars|vm_compute; discriminate]|assumption].
  rewrite writestr_ok; [|split; [chars|vm_compute; discriminate]|reflexivity]. cbn [k_entries k_files k_closed].
  eexists. split; [reflexivity|]. split; [|reflexivity]. cbn [k_entries]. exists (manifest_xml (map fst files)).
  split; [rewrite He, Hf, <- app_assoc; reflexivity|]. apply manifest_denotes.
  apply Forall_map. eapply Forall_impl; [|exact Hok]. intros f [[Hs _] Hm]. split; assumption.
Qed.

Lemma history_holds : forall l files p, holding files p -> Forall storable_insertion l ->
  exists p', history l p = (map outcome_of l, p') /\ holding (files ++ readable l) p'.
Proof.
  induction l as [|[path media data] l IH]; intros files p H Hs.
  - exists p. rewrite app_nil_r. split; [reflexivity|assumption].
  - inversion Hs as [|? ? [Hp Hm] Hs']; subst. cbn [n_path n_media] in Hp, Hm. cbn [history readable n_path n_media n_data map].
    destruct data as [d|e].
    + destruct (holding_insert files p path media d H Hp) as (p1 & E & H1). rewrite E.
      destruct (IH _ _ H1 Hs') as (p2 & E2 & H2). rewrite E2. exists p2. split; [reflexivity|]. rewrite <- app_assoc in H2. exact H2.
    + cbn [insert_stream]. destruct (IH _ _ H Hs') as (p2 & E2 & H2). rewrite E2. exists p2. split; [reflexivity|assumption].
Qed.

Lemma readable_ok : forall l, Forall storable_insertion l -> Forall file_ok (readable l).
Proof.
  induction 1 as [|[path media [d|e]] l [Hp Hm] Hl IH]; cbn [readable]; [constructor| |exact IH]. constructor; [split; assumption|exact IH].
Qed.

Lemma holding_new : holding [] new_package.
Proof. repeat split. Qed.

Theorem history_package : forall l, Forall storable_insertion l ->
  exists before after, history l new_package = (map outcome_of l, before) /\ package_close before = (Ok tt, after) /\
    finished_package (readable l) (k_entries after) /\ k_closed after = true.
Proof.
  intros l H. destruct (history_holds l [] new_package holding_new H) as (p & E & Hh).
  destruct (close_holding _ _ Hh (readable_ok l H)) as (p' & Ec & Hf & Hc). exists p, p'. auto.
Qed.

(** ** What a reader finds *)

Lemma leqb_true : forall a b, leqb a b = true <-> a = b.
Proof. intros a b. unfold leqb. destruct (list_eq_dec Z.eq_dec a b); split; congruence. Qed.

Lemma unzip_app : forall name a b, unzip name (a ++ b) = match unzip name b with Some x => Some x | None => unzip name a end.
Proof.
  intros name. induction a as [|[n d] a IH]; intros b; cbn [app unzip].
  - destruct (unzip name b); reflexivity.
  - rewrite IH. destruct (unzip name b); reflexivity.
Qed.

Lemma unzip_none : forall name l, ~ In name (map fst l) -> unzip name l = None.
Proof.
  intros name. induction l as [|[n d] l IH]; intros H; [reflexivity|]. cbn [unzip map fst In] in *. rewrite IH by tauto.
  destruct (leqb n name) eqn:E; [apply leqb_true in E; tauto|reflexivity].
Qed.

Lemma unzip_here : forall name d l r, ~ In name (map fst r) -> unzip name (l ++ (name, d) :: r) = Some d.
Proof.
  intros name d l r H. rewrite unzip_app. cbn [unzip]. rewrite (unzip_none _ _ H).
  destruct (leqb name name) eqn:E; [reflexivity|]. assert (X : leqb name name = true) by now apply leqb_true. congruence.
Qed.

Theorem finished_lookup : forall files entries path media data before later, finished_package files entries ->
  files = before ++ (path, media, data) :: later ->
  ~ In path (map (fun f => fst (fst f)) later) -> path <> zs "META-INF/manifest.xml" -> path <> zs "mimetype" ->
  unzip path entries = Some data.
Proof.
  intros files entries path media data before later (m & -> & _) -> Hl H1 H2.
  rewrite map_app. cbn [map fst snd]. rewrite <- app_assoc. cbn [app]. apply unzip_here. rewrite map_app, map_map. cbn [map fst In].
  intros H. apply in_app_or in H. destruct H as [H|[H|[H|[]]]]; [|congruence|congruence]. apply Hl. exact H.
Qed.

Theorem finished_manifest : forall files entries, finished_package files entries ->
  exists m, unzip (zs "META-INF/manifest.xml") entries = Some m /\ denotes m (manifest_events (map fst files)).
Proof.
  intros files entries (m & -> & D). exists m. split; [|exact D]. rewrite unzip_app. reflexivity.
Qed.

Theorem finished_mimetype : forall files entries, finished_package files entries ->
  unzip (zs "mimetype") entries = Some (zs "application/vnd.oasis.opendocument.text").
Proof. intros files entries (m & -> & D). rewrite unzip_app. reflexivity. Qed.

(** ** The conversion *)

Lemma rdf_is : manifest_rdf = lines rdf_lines.
Proof. vm_compute. reflexivity. Qed.

(** The loop of a conversion over a list of insertions. *)
Fixpoint inserting (l : list insertion) (p : package) : res unit * package :=
  match l with
  | [] => (Ok tt, p)
  | i :: r => pthen (insert_stream (n_data i) (n_path i) (n_media i) p) (inserting r)
  end.

Lemma inserting_app : forall a b p, inserting (a ++ b) p = pthen (inserting a p) (inserting b).
Proof.
  induction a as [|i a IH]; intros b p; [reflexivity|]. cbn [app inserting].
  destruct (insert_stream (n_data i) (n_path i) (n_media i) p) as [[x|e] p1]; cbn [pthen]; [apply IH|reflexivity].
Qed.

Lemma bindata_inserting : forall l p, insert_bindata l p =
  inserting (map (fun s => mkInsertion (zs "bindata/" ++ fst s) (zs "application/octet-stream") (snd s)) l) p.
Proof.
  induction l as [|[n d] l IH]; intros p; [reflexivity|]. cbn [insert_bindata map inserting n_data n_path n_media fst snd].
  destruct (insert_stream d _ _ p) as [[x|e] p1]; cbn [pthen]; [apply IH|reflexivity].
Qed.

Lemma transform_inserting : forall styles content bindata p,
  transform_hwp5_to_package (Ok tt) styles content bindata p = inserting (intended styles content bindata) p.
Proof.
  intros styles content bindata p. unfold transform_hwp5_to_package, intended. rewrite inserting_app.
  assert (E : forall q, transform_xhwp5_into_package styles content q =
    inserting [mkInsertion (zs "styles.xml") (zs "text/xml") styles; mkInsertion (zs "content.xml") (zs "text/xml") content;
               mkInsertion (zs "manifest.rdf") (zs "application/rdf+xml") (Ok (lines rdf_lines))] q).
  { intros q. unfold transform_xhwp5_into_package, insert_path. rewrite rdf_is. cbn [inserting n_data n_path n_media].
    destruct (insert_stream styles _ _ q) as [[x|e] p1]; cbn [pthen]; [|reflexivity].
    destruct (insert_stream content _ _ p1) as [[y|e] p2]; cbn [pthen]; [|reflexivity].
    destruct (insert_stream (Ok (lines rdf_lines)) _ _ p2) as [[[]|e] p3]; reflexivity. }
  rewrite E. destruct (inserting _ p) as [[x|e] p1]; cbn [pthen]; [|reflexivity].
  destruct bindata as [l|]; [apply bindata_inserting|reflexivity].
Qed.

Lemma inserting_holds : forall l files p, holding files p -> Forall storable_insertion l ->
  exists p', inserting l p = (snd (until_failure l), p') /\ holding (files ++ fst (until_failure l)) p'.
Proof.
  induction l as [|[path media data] l IH]; intros files p H Hs.
  - exists p. rewrite app_nil_r. split; [reflexivity|assumption].
  - inversion Hs as [|? ? [Hp Hm] Hs']; subst. cbn [n_path n_media] in Hp, Hm. cbn [inserting until_failure n_path n_media n_data].
    destruct data as [d|e].
    + destruct (holding_insert files p path media d H Hp) as (p1 & E & H1). rewrite E. cbn [pthen].
      destruct (IH _ _ H1 Hs') as (p2 & E2 & H2). rewrite E2. exists p2. destruct (until_failure l) as [f o]. cbn [fst snd] in *.
      split; [reflexivity|]. rewrite <- app_assoc in H2. exact H2.
    + cbn [insert_stream pthen fst snd]. exists p. rewrite app_nil_r. split; [reflexivity|assumption].
Qed.

Lemma until_ok : forall l, Forall storable_insertion l -> Forall file_ok (fst (until_failure l)).
Proof.
  induction 1 as [|[path media [d|e]] l [Hp Hm] Hl IH]; cbn [until_failure]; [constructor| |constructor].
  destruct (until_failure l) as [f o]. cbn [fst] in *. constructor; [split; assumption|exact IH].
Qed.

Lemma intended_storable : forall styles content bindata, bindata_storable bindata ->
  Forall storable_insertion (intended styles content bindata).
Proof.
  intros styles content bindata H. unfold intended. rewrite Forall_app. split.
  - repeat apply Forall_cons; try apply Forall_nil; (split; [split; [chars|vm_compute; discriminate]|chars]).
  - apply Forall_map. destruct bindata as [l|]; [|apply Forall_nil]. eapply Forall_impl; [|exact H]. intros [n d] [Hc Hl]. cbn [fst] in *.
    split; [|chars]. cbn [n_path]. split; [apply Forall_app; split; [chars|assumption]|]. unfold zlen in *. rewrite app_length.
    change (length (zs "bindata/")) with 8%nat. lia.
Qed.

Theorem conversion_package : forall xml styles content bindata, bindata_storable bindata ->
  let files := match xml with Ok _ => fst (until_failure (intended styles content bindata)) | Raise _ => [] end in
  let result := match xml with Ok _ => snd (until_failure (intended styles content bindata)) | Raise e => Raise e end in
  exists p, convert_to_package xml styles content bindata = (result, p) /\ finished_package files (k_entries p) /\ k_closed p = true.
Proof.
  intros xml styles content bindata H. cbv zeta. unfold convert_to_package. pose proof (intended_storable styles content _ H) as HI.
  destruct xml as [[]|e].
  - rewrite transform_inserting. destruct (inserting_holds _ [] _ holding_new HI) as (p & E & Hh). rewrite E.
    destruct (close_holding _ _ Hh (until_ok _ HI)) as (p' & Ec & Hf & Hc). rewrite Ec. exists p'. auto.
  - cbn [transform_hwp5_to_package]. destruct (close_holding [] _ holding_new (Forall_nil _)) as (p' & Ec & Hf & Hc). rewrite Ec.
    exists p'. auto.
Qed.

(** ** Errors *)

Theorem closed_refuses : forall p, k_closed p = true ->
  (forall data path media, insert_stream (Ok data) path media p = (Raise ValueError, p)) /\ package_close p = (Raise ValueError, p).
Proof. intros p H. unfold insert_stream, package_close, writestr. rewrite H. split; reflexivity. Qed.

Theorem failed_insertion : forall read path media p e p', insert_stream read path media p = (Raise e, p') -> p' = p.
Proof.
  intros read path media p e p' H. unfold insert_stream in H. destruct read as [d|x]; [|congruence].
  unfold writestr in H. destruct (k_closed p); [congruence|]. destruct (utf8_encode (zip_name path)) as [b|]; [|congruence].
  destruct (65535 <? zlen b); congruence.
Qed.

Lemma utf8_encode_surrogate : forall s, (exists c, In c s /\ 0xd800 <= c < 0xe000) -> exists e, utf8_encode s = Raise e.
Proof.
  induction s as [|x s IH]; intros (c & Hc & Hr); [destruct Hc|]. cbn [utf8_encode]. destruct (utf8_char x) as [b|e] eqn:E; [|exists e; reflexivity].
  cbn [bind]. destruct Hc as [->|Hc].
  - exfalso. unfold utf8_char in E. replace (c <? 128) with false in E by (symmetry; apply Z.ltb_ge; lia).
    replace (c <? 2048) with false in E by (symmetry; apply Z.ltb_ge; lia).
    replace ((55296 <=? c) && (c <? 57344)) with true in E; [discriminate|]. symmetry. apply andb_true_intro. split; [apply Z.leb_le|apply Z.ltb_lt]; lia.
  - destruct IH as (e & ->); [exists c; auto|]. exists e. reflexivity.
Qed.

Theorem surrogate_refused : forall data path media p, (exists c, In c path /\ 0xd800 <= c < 0xe000) -> ~ In 0 path ->
  exists e, insert_stream (Ok data) path media p = (Raise e, p).
Proof.
  intros data path media p H H0. assert (E : zip_name path = path).
  { clear H. induction path as [|c s IH]; [reflexivity|]. cbn [zip_name In] in *. destruct (c =? 0) eqn:Z; [apply Z.eqb_eq in Z; subst; tauto|].
    f_equal. apply IH. tauto. }
  unfold insert_stream, writestr. rewrite E. destruct (utf8_encode_surrogate path H) as (e & ->).
  destruct (k_closed p); eexists; reflexivity.
Qed.
