(** The header of a score: ScoreWriter.cpp:49-124, ScoreReader.cpp:175-292,
    impl/EncodingFunctions.cpp and impl/PageTextFunctions.cpp. *)
From Coq Require Import String List ZArith Bool.
From Verif Require Import Model.Base Model.Text Model.Strings Model.Date.
Import ListNotations.
Open Scope Z_scope.

(** api::SupportedItem, MiscellaneousField, EncodingDate and EncodingData,
    EncodingData.h:16-69. *)
Record SupportedItem := mkSupported { si_element : str; si_attribute : str; si_value : str; si_supported : bool }.
Record MiscellaneousField := mkMisc { mf_key : str; mf_value : str }.
Record EncodingData := mkEncoding {
  e_year : Z; e_month : Z; e_day : Z;
  e_encoder : str;
  e_description : str;
  e_software : list str;
  e_supported : list SupportedItem;
  e_misc : list MiscellaneousField
}.
Definition default_encoding : EncodingData := mkEncoding (-1) (-1) (-1) [] [] [] [] [].

(** api::PageTextData, PageTextData.h:21-29, without the position and the font. *)
Record PageTextData := mkPageText { pt_text : str; pt_page : Z; pt_description : str }.

(** api::ScoreData, ScoreData.h:24-46: what makes up the header. *)
Inductive MusicXmlVersion := VersionUnspecified | ThreePointZero.
Record HeaderData := mkHeader {
  h_version : MusicXmlVersion;
  h_workTitle : str;
  h_workNumber : str;
  h_movementTitle : str;
  h_movementNumber : str;
  h_composer : str;
  h_lyricist : str;
  h_arranger : str;
  h_publisher : str;
  h_copyright : str;
  h_encoding : EncodingData;
  h_pageTexts : list PageTextData
}.
Definition default_header : HeaderData := mkHeader VersionUnspecified [] [] [] [] [] [] [] [] [] default_encoding [].

(** core::EncodingChoice; of core::Supports the attributes. *)
Inductive encoding_choice :=
  | XDate (d : date)
  | XEncoder (t : str)
  | XDescription (t : str)
  | XSoftware (t : str)
  | XSupports (element : str) (attribute : option str) (value : option str) (type : bool).

(** core::Creator and core::Rights: the type attribute and the text. *)
Definition typed_text : Type := option str * str.

(** core::Identification; [None] where there is no <encoding> or <miscellaneous>. A
    miscellaneous field has a name and a text. *)
Record identification := mkIdentification {
  i_creators : list typed_text;
  i_rights : list typed_text;
  i_encoding : option (list encoding_choice);
  i_misc : option (list (str * str))
}.

(** core::Credit: the page attribute, the credit-types, and the credit-words, [None] for a
    picture. *)
Record credit := mkCredit { cr_page : option Z; cr_types : list str; cr_words : option str }.

(** core::ScoreHeaderGroup and the version attribute of core::ScorePartwise. *)
Record xheader := mkXHeader {
  x_version : option str;
  x_work : option (option str * option str);  (* work-title and work-number *)
  x_movementTitle : option str;
  x_movementNumber : option str;
  x_identification : option identification;
  x_credits : list credit
}.

(** Where a text is written unless it is empty. *)
Definition unless_empty (t : str) : option str := match t with [] => None | _ => Some t end.
Definition value_or_empty (t : option str) : str := match t with None => [] | Some t => t end.

(** createEncoding, EncodingFunctions.cpp:23-113: the encoding-choices. *)
Definition supports_choice (s : SupportedItem) : encoding_choice :=
  XSupports (token_of (si_element s)) (option_map token_of (unless_empty (si_attribute s)))
    (option_map token_of (unless_empty (si_value s))) (si_supported s).
Definition date_choice (y m d : Z) : list encoding_choice :=
  let tryDate := mkDate y m d in
  if (y =? myYear tryDate) || (m =? myMonth tryDate) || (d =? myDay tryDate) then [XDate tryDate] else [].
Definition encoding_choices (e : EncodingData) : list encoding_choice :=
  match e_encoder e with [] => [] | t => [XEncoder t] end ++
  date_choice (e_year e) (e_month e) (e_day e) ++
  match e_description e with [] => [] | t => [XDescription t] end ++
  map XSoftware (e_software e) ++
  map supports_choice (e_supported e).

(** ScoreWriter::getScorePartwise, ScoreWriter.cpp:92-122: the identification. *)
Definition creators (h : HeaderData) : list typed_text :=
  match h_composer h with [] => [] | t => [(Some (token_of (lit "composer")), t)] end ++
  match h_lyricist h with [] => [] | t => [(Some (token_of (lit "lyricist")), t)] end.
Definition rights (h : HeaderData) : list typed_text :=
  match h_copyright h with [] => [] | t => [(Some (token_of (lit "copyright")), t)] end.
Definition misc_fields (e : EncodingData) : list (str * str) := map (fun m => (token_of (mf_key m), mf_value m)) (e_misc e).

Definition write_identification (h : HeaderData) : option identification :=
  let choices := encoding_choices (h_encoding h) in
  let misc := misc_fields (h_encoding h) in
  match creators h, rights h, choices, misc with
  | [], [], [], [] => None
  | _, _, _, _ =>
    Some (mkIdentification (creators h) (rights h)
            (match choices, misc with [], [] => None | _, _ => Some choices end)
            (match misc with [] => None | _ => Some misc end))
  end.

(** createPageTextItems, PageTextFunctions.cpp:19-51. *)
Definition write_page_text (p : PageTextData) : credit :=
  mkCredit (if 0 <? pt_page p then Some (pt_page p) else None)
    (match pt_description p with [] => [] | t => [t] end) (Some (pt_text p)).

(** ScoreWriter::getScorePartwise, ScoreWriter.cpp:49-124. *)
Definition write_header (h : HeaderData) : xheader :=
  mkXHeader (match h_version h with VersionUnspecified => None | ThreePointZero => Some (token_of (lit "3.0")) end)
    (match h_workTitle h, h_workNumber h with
     | [], [] => None
     | _, _ => Some (unless_empty (h_workTitle h), unless_empty (h_workNumber h))
     end)
    (unless_empty (h_movementTitle h)) (unless_empty (h_movementNumber h))
    (write_identification h) (map write_page_text (h_pageTexts h)).

(** createEncoding, EncodingFunctions.cpp:116-180: the first date, encoder and
    description, all the software and supports. The flags say what has been found. *)
Record found := mkFound { f_date : bool; f_encoder : bool; f_description : bool }.
Definition read_choice (q : EncodingData * found) (c : encoding_choice) : EncodingData * found :=
  let (e, f) := q in
  match c with
  | XDate d =>
    if f_date f then q
    else (mkEncoding (myYear d) (myMonth d) (myDay d) (e_encoder e) (e_description e) (e_software e) (e_supported e) (e_misc e),
          mkFound true (f_encoder f) (f_description f))
  | XEncoder t =>
    if f_encoder f then q
    else (mkEncoding (e_year e) (e_month e) (e_day e) t (e_description e) (e_software e) (e_supported e) (e_misc e),
          mkFound (f_date f) true (f_description f))
  | XDescription t =>
    if f_description f then q
    else (mkEncoding (e_year e) (e_month e) (e_day e) (e_encoder e) t (e_software e) (e_supported e) (e_misc e),
          mkFound (f_date f) (f_encoder f) true)
  | XSoftware t =>
    (mkEncoding (e_year e) (e_month e) (e_day e) (e_encoder e) (e_description e) (e_software e ++ [t]) (e_supported e) (e_misc e), f)
  | XSupports element attribute value type =>
    (mkEncoding (e_year e) (e_month e) (e_day e) (e_encoder e) (e_description e) (e_software e)
       (e_supported e ++ [mkSupported element (value_or_empty attribute) (value_or_empty value) type]) (e_misc e), f)
  end.
Definition createEncoding (l : list encoding_choice) : EncodingData :=
  fst (fold_left read_choice l (default_encoding, mkFound false false false)).

(** ScoreReader::getScoreData, ScoreReader.cpp:213-245: composer, isComposerFound and
    lyricist. The type of a creator without the attribute is an empty text. *)
Definition type_is (c : typed_text) (t : string) : bool := str_eqb (value_or_empty (fst c)) (lit t).
Definition read_creator (q : str * bool * str) (c : typed_text) : str * bool * str :=
  let '(composer, isFound, lyricist) := q in
  let '(composer, isFound) :=
    if type_is c "composer" && negb isFound then (snd c, true) else (composer, isFound) in
  let composer := if negb isFound && (match fst c with None => true | _ => false end) then snd c else composer in
  let lyricist := if type_is c "lyricist" then snd c else lyricist in
  let lyricist := if type_is c "arranger" then snd c else lyricist in
  let lyricist := if type_is c "publisher" then snd c else lyricist in
  (composer, isFound, lyricist).

(** ScoreReader.cpp:247-261: copyright and isCopyrightFound. *)
Definition read_rights (q : str * bool) (c : typed_text) : str * bool :=
  let '(copyright, isFound) := q in
  let '(copyright, isFound) :=
    if (match fst c with None => false | _ => true end) && type_is c "copyright" && negb isFound then (snd c, true) else (copyright, isFound) in
  let copyright := if negb isFound && (match fst c with None => true | _ => false end) then snd c else copyright in
  (copyright, isFound).

(** createPageTextItems, PageTextFunctions.cpp:53-90. *)
Definition read_credit (c : credit) : list PageTextData :=
  match cr_words c with
  | None => []
  | Some t => [mkPageText t (match cr_page c with Some n => n | None => 0 end) (match cr_types c with d :: _ => d | [] => [] end)]
  end.

(** ScoreReader::getScoreData, ScoreReader.cpp:175-292. *)
Definition read_header (x : xheader) : HeaderData :=
  let '(composer, lyricist, copyright, encoding) :=
    match x_identification x with
    | None => ([], [], [], default_encoding)
    | Some i =>
      let '(composer, _, lyricist) := fold_left read_creator (i_creators i) ([], false, []) in
      let '(copyright, _) := fold_left read_rights (i_rights i) ([], false) in
      let e := match i_encoding i with Some l => createEncoding l | None => default_encoding end in
      let misc := match i_misc i with Some l => map (fun p => mkMisc (fst p) (snd p)) l | None => [] end in
      (composer, lyricist, copyright,
       mkEncoding (e_year e) (e_month e) (e_day e) (e_encoder e) (e_description e) (e_software e) (e_supported e) (e_misc e ++ misc))
    end in
  mkHeader (match x_version x with Some t => if str_eqb t (lit "3.0") then ThreePointZero else VersionUnspecified | None => VersionUnspecified end)
    (match x_work x with Some (t, _) => value_or_empty t | None => [] end)
    (match x_work x with Some (_, n) => value_or_empty n | None => [] end)
    (value_or_empty (x_movementTitle x)) (value_or_empty (x_movementNumber x))
    composer lyricist [] [] copyright encoding (flat_map read_credit (x_credits x)).
