(** XML text as pugixml reads and writes it:
    ezxml/src/private/private/pugixml.cpp, with the options of PugiDoc.cpp:13-14,34
    (parse_default, parse_declaration, parse_doctype, parse_pi) and :172-196
    (format_indent, two blanks). The buffer has a zero added at its end
    (zero_terminate_buffer, pugixml.cpp:4765-4786), so endch is zero and the end of a list
    stands for the zero character. Left out: the detection of encodings other than UTF-8,
    allocation failures, and what PugiDoc::loadStream does to the declaration
    (PugiDoc.cpp:118-168). *)
From Coq Require Import List Ascii String ZArith Bool.
From Verif Require Import Model.Base Model.Text Model.Strings.
Import ListNotations.
Open Scope Z_scope.

(** chartype_t and chartype_table, pugixml.cpp:1828-1859; chartypex_t and
    chartypex_table, :1861-1890. *)
Definition ct_space : Z := 8.
Definition ct_symbol : Z := 64.
Definition ct_start_symbol : Z := 128.
Definition ctx_special_pcdata : Z := 1.
Definition ctx_special_attr : Z := 2.

Definition chartype_table : list Z :=
  [
   55; 0; 0; 0; 0; 0; 0; 0; 0; 12; 12; 0; 0; 63; 0; 0;
   0; 0; 0; 0; 0; 0; 0; 0; 0; 0; 0; 0; 0; 0; 0; 0;
   8; 0; 6; 0; 0; 0; 7; 6; 0; 0; 0; 0; 0; 96; 64; 0;
   64; 64; 64; 64; 64; 64; 64; 64; 64; 64; 192; 0; 1; 0; 48; 0;
   0; 192; 192; 192; 192; 192; 192; 192; 192; 192; 192; 192; 192; 192; 192; 192;
   192; 192; 192; 192; 192; 192; 192; 192; 192; 192; 192; 0; 0; 16; 0; 192;
   0; 192; 192; 192; 192; 192; 192; 192; 192; 192; 192; 192; 192; 192; 192; 192;
   192; 192; 192; 192; 192; 192; 192; 192; 192; 192; 192; 0; 0; 0; 0; 0;
   192; 192; 192; 192; 192; 192; 192; 192; 192; 192; 192; 192; 192; 192; 192; 192;
   192; 192; 192; 192; 192; 192; 192; 192; 192; 192; 192; 192; 192; 192; 192; 192;
   192; 192; 192; 192; 192; 192; 192; 192; 192; 192; 192; 192; 192; 192; 192; 192;
   192; 192; 192; 192; 192; 192; 192; 192; 192; 192; 192; 192; 192; 192; 192; 192;
   192; 192; 192; 192; 192; 192; 192; 192; 192; 192; 192; 192; 192; 192; 192; 192;
   192; 192; 192; 192; 192; 192; 192; 192; 192; 192; 192; 192; 192; 192; 192; 192;
   192; 192; 192; 192; 192; 192; 192; 192; 192; 192; 192; 192; 192; 192; 192; 192;
   192; 192; 192; 192; 192; 192; 192; 192; 192; 192; 192; 192; 192; 192; 192; 192].

Definition chartypex_table : list Z :=
  [
   3; 3; 3; 3; 3; 3; 3; 3; 3; 2; 2; 3; 3; 2; 3; 3;
   3; 3; 3; 3; 3; 3; 3; 3; 3; 3; 3; 3; 3; 3; 3; 3;
   0; 0; 2; 0; 0; 0; 3; 2; 0; 0; 0; 0; 0; 16; 16; 0;
   24; 24; 24; 24; 24; 24; 24; 24; 24; 24; 0; 0; 3; 0; 1; 0;
   0; 20; 20; 20; 20; 20; 20; 20; 20; 20; 20; 20; 20; 20; 20; 20;
   20; 20; 20; 20; 20; 20; 20; 20; 20; 20; 20; 0; 0; 0; 0; 20;
   0; 20; 20; 20; 20; 20; 20; 20; 20; 20; 20; 20; 20; 20; 20; 20;
   20; 20; 20; 20; 20; 20; 20; 20; 20; 20; 20; 0; 0; 0; 0; 0;
   20; 20; 20; 20; 20; 20; 20; 20; 20; 20; 20; 20; 20; 20; 20; 20;
   20; 20; 20; 20; 20; 20; 20; 20; 20; 20; 20; 20; 20; 20; 20; 20;
   20; 20; 20; 20; 20; 20; 20; 20; 20; 20; 20; 20; 20; 20; 20; 20;
   20; 20; 20; 20; 20; 20; 20; 20; 20; 20; 20; 20; 20; 20; 20; 20;
   20; 20; 20; 20; 20; 20; 20; 20; 20; 20; 20; 20; 20; 20; 20; 20;
   20; 20; 20; 20; 20; 20; 20; 20; 20; 20; 20; 20; 20; 20; 20; 20;
   20; 20; 20; 20; 20; 20; 20; 20; 20; 20; 20; 20; 20; 20; 20; 20;
   20; 20; 20; 20; 20; 20; 20; 20; 20; 20; 20; 20; 20; 20; 20; 20].

(** PUGI__IS_CHARTYPE and PUGI__IS_CHARTYPEX, :1892-1899. *)
Definition is_chartype (c : ascii) (ct : Z) : bool := negb (Z.land (nth (N.to_nat (N_of_ascii c)) chartype_table 0) ct =? 0).
Definition is_chartypex (c : ascii) (ct : Z) : bool := negb (Z.land (nth (N.to_nat (N_of_ascii c)) chartypex_table 0) ct =? 0).

(** * The tree *)

(** xml_node: elements, text, CDATA sections, processing instructions (the value may be
    null), the declaration and the doctype. *)
Inductive xml :=
| XElement (name : str) (attributes : list (str * str)) (children : list xml)
| XText (t : str)
| XCData (t : str)
| XInstruction (name : str) (value : option str)
| XDeclaration (name : str) (attributes : list (str * str)) (children : list xml)
| XDoctype (value : str).

(** * Reading *)

(** PUGI__SKIPWS, :2588. *)
Fixpoint skip_space (s : str) : str :=
  match s with
  | c :: r => if is_chartype c ct_space then skip_space r else s
  | [] => []
  end.

(** PUGI__SCANWHILE over ct_symbol, :2593-2594. *)
Fixpoint scan_symbol (s : str) : str * str :=
  match s with
  | c :: r => if is_chartype c ct_symbol then let (n, q) := scan_symbol r in (c :: n, q) else ([], s)
  | [] => ([], [])
  end.

Definition starts_symbol (s : str) : bool := match s with c :: _ => is_chartype c ct_start_symbol | [] => false end.

(** Whether the text starts with these characters, and what follows them. *)
Fixpoint after_prefix (p s : str) : option str :=
  match p, s with
  | [], _ => Some s
  | a :: p', c :: r => if Ascii.eqb a c then after_prefix p' r else None
  | _ :: _, [] => None
  end.

(** PUGI__SCANFOR of a sequence of characters, :2592: what comes before it and after it;
    [None] if the end of the text comes first. *)
Fixpoint scan_for (p s : str) : option (str * str) :=
  match after_prefix p s with
  | Some r => Some ([], r)
  | None => match s with
            | [] => None
            | c :: r => option_map (fun q => (c :: fst q, snd q)) (scan_for p r)
            end
  end.

(** utf8_writer::any, :1469-1511. *)
Definition utf8 (u : Z) : str :=
  if u <? 128 then [chr u]
  else if u <? 2048 then [chr (192 + u / 64); chr (128 + u mod 64)]
  else if u <? 65536 then [chr (224 + u / 4096); chr (128 + u / 64 mod 64); chr (128 + u mod 64)]
  else [chr (Z.lor 240 (u / 262144) mod 256); chr (128 + u / 4096 mod 64); chr (128 + u / 64 mod 64); chr (128 + u mod 64)].

(** The rest of an entity name in strconv_escape: what follows it, or what has been
    stepped over and what is left. *)
Fixpoint entity (seen name s : str) : str + (str * str) :=
  match name with
  | [] => inl s
  | a :: n => match s with
              | c :: r => if Ascii.eqb a c then entity (seen ++ [c]) n r else inr (seen, s)
              | [] => inr (seen, s)
              end
  end.

Definition hex_digit (c : ascii) : option Z :=
  let n := code c in
  if (48 <=? n) && (n <=? 57) then Some (n - 48)
  else if (97 <=? n) && (n <=? 102) then Some (n - 87)
  else if (65 <=? n) && (n <=? 70) then Some (n - 55)
  else None.
Definition dec_digit (c : ascii) : option Z := if is_digit c then Some (digit_of c) else None.

(** The loops over the digits, :2464-2477 and :2489-2500; unsigned int. *)
Fixpoint char_reference (base : Z) (digit : ascii -> option Z) (seen : str) (u : Z) (s : str) : (Z * str) + (str * str) :=
  match s with
  | [] => inr (seen, [])
  | c :: r =>
      match digit c with
      | Some d => char_reference base digit (seen ++ [c]) ((base * u + d) mod 4294967296) r
      | None => if Ascii.eqb c ";" then inl (u, r) else inr (seen, s)
      end
  end.

(** strconv_escape, :2446-2584: of what follows the ampersand, the text to which it is
    converted (as it stands, if it is no reference) and the rest. *)
Definition escaped (q : str + (str * str)) (c : ascii) : str * str :=
  match q with inl r => ([c], r) | inr k => k end.
Definition numbered_escape (q : (Z * str) + (str * str)) : str * str :=
  match q with inl (u, r) => (utf8 u, r) | inr k => k end.

Local Open Scope char_scope.
Definition strconv_escape (s : str) : str * str :=
  match s with
  | "#" :: "x" :: r =>
      match r with
      | ";" :: _ => (lit "&#x", r)
      | _ => numbered_escape (char_reference 16 hex_digit (lit "&#x") 0 r)
      end
  | "#" :: r =>
      match r with
      | ";" :: _ => (lit "&#", r)
      | _ => numbered_escape (char_reference 10 dec_digit (lit "&#") 0 r)
      end
  | "a" :: "m" :: r => escaped (entity (lit "&am") (lit "p;") r) "&"
  | "a" :: "p" :: r => escaped (entity (lit "&ap") (lit "os;") r) "'"
  | "a" :: r => (lit "&a", r)
  | "g" :: r => escaped (entity (lit "&g") (lit "t;") r) ">"
  | "l" :: r => escaped (entity (lit "&l") (lit "t;") r) "<"
  | "q" :: r => escaped (entity (lit "&q") (lit "uot;") r) "034"
  | _ => (lit "&", s)
  end.

(** strconv_pcdata_impl<opt_false, opt_true, opt_true>::parse, :2657-2706: the text, and
    the rest from the '<' on. The fuel is the length of the text, which is enough. *)
Fixpoint strconv_pcdata (fuel : nat) (s : str) : str * str :=
  match fuel, s with
  | _, [] => ([], [])
  | O, _ => ([], s)
  | S f, c :: r =>
      if Ascii.eqb c "<" then ([], s)
      else if Ascii.eqb c "013" then
        let (t, q) := strconv_pcdata f (match r with "010" :: r' => r' | _ => r end) in ("010" :: t, q)
      else if Ascii.eqb c "&" then
        let (e, r') := strconv_escape r in let (t, q) := strconv_pcdata f r' in (e ++ t, q)
      else let (t, q) := strconv_pcdata f r in (c :: t, q)
  end.

(** strconv_attribute_impl<opt_true>::parse_wconv, :2782-2816: the value, and the rest
    after the quote; [None] at the end of the text. *)
Fixpoint strconv_attribute (fuel : nat) (quote : ascii) (s : str) : option (str * str) :=
  match fuel, s with
  | S f, c :: r =>
      if Ascii.eqb c quote then Some ([], r)
      else if is_chartype c ct_space then
        option_map (fun q => (" " :: fst q, snd q))
          (strconv_attribute f quote (if Ascii.eqb c "013" then match r with "010" :: r' => r' | _ => r end else r))
      else if Ascii.eqb c "&" then
        let (e, r') := strconv_escape r in option_map (fun q => (e ++ fst q, snd q)) (strconv_attribute f quote r')
      else option_map (fun q => (c :: fst q, snd q)) (strconv_attribute f quote r)
  | _, _ => None
  end.

(** strconv_cdata, :2627-2653, and the step over the last "]>", :3106. *)
Fixpoint strconv_cdata (fuel : nat) (s : str) : option (str * str) :=
  match fuel, s with
  | S f, c :: r =>
      if Ascii.eqb c "013" then
        option_map (fun q => ("010" :: fst q, snd q)) (strconv_cdata f (match r with "010" :: r' => r' | _ => r end))
      else
        match after_prefix (lit "]]>") s with
        | Some r' => Some ([], r')
        | None => option_map (fun q => (c :: fst q, snd q)) (strconv_cdata f r)
        end
  | _, _ => None
  end.

(** The loop at LOC_ATTRIBUTES, :3273-3355: the attributes, whether the tag ended with
    "/>", and the rest. A value is a zero-terminated string ([c_str]). *)
Fixpoint parse_attributes (fuel : nat) (attributes : list (str * str)) (s : str) : option (list (str * str) * bool * str) :=
  match fuel with
  | O => None
  | S f =>
      let s := skip_space s in
      if starts_symbol s then
        let (name, r) := scan_symbol s in
        match after_prefix (lit "=") (skip_space r) with
        | Some r =>
            match skip_space r with
            | quote :: r =>
                if Ascii.eqb quote "034" || Ascii.eqb quote "'" then
                  match strconv_attribute (List.length r) quote r with
                  | Some (value, r) => if starts_symbol r then None else parse_attributes f (attributes ++ [(name, c_str value)]) r
                  | None => None
                  end
                else None
            | [] => None
            end
        | None => None
        end
      else
        match after_prefix (lit "/>") s, after_prefix (lit ">") s with
        | Some r, _ => Some (attributes, true, r)
        | None, Some r => Some (attributes, false, r)
        | None, None => None
        end
  end.

(** parse_doctype_primitive, parse_doctype_ignore and parse_doctype_group, :2929-3037,
    from after the "<!": the text up to the '>' (in reverse) and the rest. [ignore]: the
    depth within a "<![" section, which starts at 1. The fuel is the length of the text. *)
Fixpoint parse_doctype_group (fuel : nat) (ignore depth : nat) (seen s : str) : option (str * str) :=
  match fuel, s with
  | S f, c :: r =>
      let skip p q := parse_doctype_group f ignore depth (rev p ++ seen) q in
      match ignore with
      | S ignore' =>
          match after_prefix (lit "<![") s with
          | Some q => parse_doctype_group f (S ignore) depth (rev (lit "<![") ++ seen) q
          | None =>
              match after_prefix (lit "]]>") s with
              | Some q => parse_doctype_group f ignore' depth (rev (lit "]]>") ++ seen) q
              | None => skip [c] r
              end
          end
      | O =>
          match after_prefix (lit "<![") s, after_prefix (lit "<!-") s, after_prefix (lit "<!") s with
          | Some q, _, _ => parse_doctype_group f 1 depth (rev (lit "<![") ++ seen) q
          | None, None, Some q => parse_doctype_group f 0 (S depth) (rev (lit "<!") ++ seen) q
          | _, _, _ =>
              if Ascii.eqb c "034" || Ascii.eqb c "'" then
                match scan_for [c] r with Some (p, q) => skip ([c] ++ p ++ [c]) q | None => None end
              else if Ascii.eqb c "<" then
                match after_prefix (lit "<?") s, after_prefix (lit "<!--") s with
                | Some q, _ => match scan_for (lit "?>") q with Some (p, q) => skip (lit "<?" ++ p ++ lit "?>") q | None => None end
                | None, Some q => match scan_for (lit "-->") q with Some (p, q) => skip (lit "<!--" ++ p ++ lit "-->") q | None => None end
                | None, None => None
                end
              else if Ascii.eqb c ">" then
                match depth with
                | O => Some (seen, r)
                | S d => parse_doctype_group f ignore d (c :: seen) r
                end
              else skip [c] r
          end
      end
  | _, _ => None
  end.

(** An element that is open (or the declaration), with its children in reverse. *)
Record frame := mkFrame { fr_declaration : bool; fr_name : str; fr_attributes : list (str * str); fr_children : list xml }.

(** The open elements, innermost first, the children of the document in reverse, and the
    text that is left. *)
Record parse_state := mkState { ps_open : list frame; ps_top : list xml; ps_text : str }.

Inductive step_result := Next (st : parse_state) | Finished | Failed.

(** append_new_node to the cursor. *)
Definition add_node (x : xml) (open : list frame) (top : list xml) (s : str) : parse_state :=
  match open with
  | [] => mkState [] (x :: top) s
  | f :: r => mkState (mkFrame (fr_declaration f) (fr_name f) (fr_attributes f) (x :: fr_children f) :: r) top s
  end.

Definition closed_frame (f : frame) : xml :=
  (if fr_declaration f then XDeclaration else XElement) (fr_name f) (fr_attributes f) (rev (fr_children f)).

(** PUGI__POPNODE for a node with children. *)
Definition pop_node (f : frame) (open : list frame) (top : list xml) (s : str) : parse_state := add_node (closed_frame f) open top s.

(** The attributes of a new node, then "/>" or ">". *)
Definition open_tag (declaration : bool) (name s : str) (open : list frame) (top : list xml) : step_result :=
  match parse_attributes (S (List.length s)) [] s with
  | Some (attributes, true, r) => Next (pop_node (mkFrame declaration name attributes []) open top r)
  | Some (attributes, false, r) => Next (mkState (mkFrame declaration name attributes [] :: open) top r)
  | None => Failed
  end.

(** (c | ' ') == 'x' *)
Definition is_letter (c lower : ascii) : bool := (Z.lor (code c) 32 =? code lower)%Z.
Definition is_xml (target : str) : bool :=
  match target with [a; b; c] => is_letter a "x" && is_letter b "m" && is_letter c "l" | _ => false end.

(** After a processing instruction inside of a declaration that has been left open (by a
    '>' in it), parse_tree goes on reading attributes of the declaration, :3395-3396. *)
Definition after_question (st : parse_state) : step_result :=
  match ps_open st with
  | f :: open' =>
      if fr_declaration f then
        match parse_attributes (S (List.length (ps_text st))) (fr_attributes f) (ps_text st) with
        | Some (attributes, true, r) => Next (pop_node (mkFrame true (fr_name f) attributes (fr_children f)) open' (ps_top st) r)
        | Some (attributes, false, r) => Next (mkState (mkFrame true (fr_name f) attributes (fr_children f) :: open') (ps_top st) r)
        | None => Failed
        end
      else Next st
  | [] => Next st
  end.

(** parse_question, :3148-3240, from after the '?'. *)
Definition parse_question (s : str) (open : list frame) (top : list xml) : step_result :=
  if negb (starts_symbol s) then Failed
  else
    let (target, r) := scan_symbol s in
    if is_xml target then
      match open with
      | _ :: _ => Failed
      | [] =>
          match after_prefix (lit "?>") r, r with
          | Some r, _ => Next (add_node (XDeclaration target [] []) open top r)
          | None, c :: r =>
              if is_chartype c ct_space then
                match scan_for (lit "?>") (skip_space r) with
                | Some (value, r) => open_tag true target (value ++ lit "/>" ++ r) open top
                | None => Failed
                end
              else Failed
          | None, [] => Failed
          end
      end
    else
      match after_prefix (lit "?>") r, r with
      | Some r, _ => after_question (add_node (XInstruction target None) open top r)
      | None, c :: r =>
          if is_chartype c ct_space then
            match scan_for (lit "?>") (skip_space r) with
            | Some (value, r) => after_question (add_node (XInstruction target (Some value)) open top r)
            | None => Failed
            end
          else Failed
      | None, [] => Failed
      end.

(** parse_exclamation, :3039-3146, from after the '!'. *)
Definition parse_exclamation (s : str) (open : list frame) (top : list xml) : step_result :=
  match after_prefix (lit "--") s, after_prefix (lit "[CDATA[") s, after_prefix (lit "DOCTYPE") s with
  | Some r, _, _ => match scan_for (lit "-->") r with Some (_, r) => Next (mkState open top r) | None => Failed end
  | None, Some r, _ => match strconv_cdata (List.length r) r with Some (t, r) => Next (add_node (XCData t) open top r) | None => Failed end
  | None, None, Some r =>
      match open with
      | _ :: _ => Failed
      | [] => match parse_doctype_group (List.length r) 0 0 [] r with
              | Some (seen, r) => Next (add_node (XDoctype (skip_space (rev seen))) open top r)
              | None => Failed
              end
      end
  | None, None, None => Failed
  end.

(** From LOC_TAG on, :3257-3418, after the '<'. *)
Definition parse_tag (s : str) (open : list frame) (top : list xml) : step_result :=
  if starts_symbol s then
    let (name, r) := scan_symbol s in
    match after_prefix (lit ">") r, after_prefix (lit "/>") r, r with
    | Some r, _, _ => Next (mkState (mkFrame false name [] [] :: open) top r)
    | None, Some r, _ => Next (pop_node (mkFrame false name [] []) open top r)
    | None, None, c :: r => if is_chartype c ct_space then open_tag false name r open top else Failed
    | None, None, [] => Failed
    end
  else
    match after_prefix (lit "/") s, after_prefix (lit "?") s, after_prefix (lit "!") s with
    | Some r, _, _ =>
        match open with
        | [] => Failed
        | f :: open' =>
            let (name, r) := scan_symbol r in
            if str_eqb name (fr_name f) then
              match after_prefix (lit ">") (skip_space r) with
              | Some r => Next (pop_node f open' top r)
              | None => Failed
              end
            else Failed
        end
    | None, Some r, _ => parse_question r open top
    | None, None, Some r => parse_exclamation r open top
    | None, None, None => Failed
    end.

(** One turn of the loop of parse_tree, :3251-3470, up to the next tag. White space alone
    is dropped, and so is any text outside of the document element. *)
Definition parse_step (st : parse_state) : step_result :=
  let open := ps_open st in
  let top := ps_top st in
  match ps_text st with
  | [] => Finished
  | s =>
      match after_prefix (lit "<") s with
      | Some r => parse_tag r open top
      | None =>
          match skip_space s with
          | [] => Next (mkState open top [])
          | c :: r =>
              if Ascii.eqb c "<" then Next (mkState open top (c :: r))
              else
                match open with
                | [] => match scan_for (lit "<") s with Some (_, r) => parse_tag r open top | None => Finished end
                | _ :: _ =>
                    let (t, r) := strconv_pcdata (List.length s) s in
                    Next (add_node (XText (c_str t)) open top r)
                end
          end
      end
  end.

Definition is_element (x : xml) : bool := match x with XElement _ _ _ => true | _ => false end.

(** The loop, and the end of parse, :3472-3477, 3505-3556. *)
Fixpoint parse_loop (fuel : nat) (st : parse_state) : outcome (list xml) :=
  match fuel with
  | O => UB
  | S f =>
      match parse_step st with
      | Next st' => parse_loop f st'
      | Finished => match ps_open st with
                    | [] => if existsb is_element (ps_top st) then Ok (rev (ps_top st)) else Throw
                    | _ :: _ => Throw
                    end
      | Failed => Throw
      end
  end.

(** parse_skip_bom, :3487-3490. *)
Definition skip_bom (s : str) : str :=
  match after_prefix [chr 239; chr 187; chr 191] s with Some r => r | None => s end.

(** xml_document::load: the children of the document, or an error, which
    PugiDoc::loadStream throws. A zero character ends the text. *)
Definition parse_document (text : str) : outcome (list xml) :=
  let s := skip_bom (c_str text) in parse_loop (S (List.length s)) (mkState [] [] s).

(** * Writing *)

(** text_output_escaped, :3906-3956. *)
Definition output_char (special : Z) (c : ascii) : str :=
  if is_chartypex c special then
    if Ascii.eqb c "&" then lit "&amp;"
    else if Ascii.eqb c "<" then lit "&lt;"
    else if Ascii.eqb c ">" then lit "&gt;"
    else if Ascii.eqb c "034" then lit "&quot;"
    else if Ascii.eqb c "'" then ["'"]
    else ["&"; "#"; chr (code c / 10 + 48)%Z; chr (code c mod 10 + 48)%Z; ";"]
  else [c].
Definition text_output (special : Z) (t : str) : str := flat_map (output_char special) t.

(** text_output_cdata, :3966-3986. The fuel is the length of the text. *)
Fixpoint text_output_cdata (fuel : nat) (t : str) : str :=
  match fuel with
  | O => []
  | S f =>
      match scan_for (lit "]]>") t with
      | Some (p, r) => lit "<![CDATA[" ++ p ++ lit "]]" ++ lit "]]>" ++ text_output_cdata f (">" :: r)
      | None => lit "<![CDATA[" ++ t ++ lit "]]>"
      end
  end.

(** node_output_pi_value, :4053-4072. *)
Fixpoint output_pi_value (fuel : nat) (t : str) : str :=
  match fuel with
  | O => []
  | S f =>
      match scan_for (lit "?>") t with
      | Some (p, r) => p ++ lit "? >" ++ output_pi_value f r
      | None => t
      end
  end.

(** node_output_attributes, :4074-4100. *)
Definition output_attributes (l : list (str * str)) : str :=
  flat_map (fun a => lit " " ++ fst a ++ ["="; "034"] ++ text_output ctx_special_attr (snd a) ++ ["034"]) l.

(** node_output_simple, :4174-4228. *)
Definition output_simple (x : xml) : str :=
  match x with
  | XText t => text_output ctx_special_pcdata t
  | XCData t => text_output_cdata (S (List.length t)) t
  | XInstruction n v => lit "<?" ++ n ++ match v with Some t => lit " " ++ output_pi_value (S (List.length t)) t | None => [] end ++ lit "?>"
  | XDeclaration n l _ => lit "<?" ++ n ++ output_attributes l ++ lit "?>"
  | XDoctype v => lit "<!DOCTYPE" ++ lit " " ++ v ++ lit ">"
  | XElement _ _ _ => []
  end.

(** The line end and the blanks before a node or a closing tag, :4254-4258, 4308-4312;
    indent_flags are either both set, both not set, or, at the start, indent_indent. *)
Inductive indent_flags := IndentBoth | IndentOnly | IndentNone.
Definition indentation (depth : nat) : str := List.concat (repeat (lit "  ") depth).
Definition output_indent (flags : indent_flags) (depth : nat) : str :=
  match flags with
  | IndentBoth => ["010"] ++ indentation depth
  | IndentOnly => indentation depth
  | IndentNone => []
  end.

(** node_output, :4236-4327, with node_output_start and node_output_end, :4102-4172. *)
Fixpoint node_output (flags : indent_flags) (depth : nat) (x : xml) : str * indent_flags :=
  let children := fix go (flags : indent_flags) (depth : nat) (l : list xml) : str * indent_flags :=
    match l with
    | [] => ([], flags)
    | y :: r => let (s, flags) := node_output flags depth y in let (q, flags) := go flags depth r in (s ++ q, flags)
    end in
  match x with
  | XText _ | XCData _ => (output_simple x, IndentNone)
  | XElement name attributes [] =>
      (output_indent flags depth ++ lit "<" ++ name ++ output_attributes attributes ++ lit " />", IndentBoth)
  | XElement name attributes l =>
      let (s, inner) := children IndentBoth (S depth) l in
      (output_indent flags depth ++ lit "<" ++ name ++ output_attributes attributes ++ lit ">" ++ s ++
         output_indent inner depth ++ lit "</" ++ name ++ lit ">", IndentBoth)
  | _ => (output_indent flags depth ++ output_simple x, IndentBoth)
  end.

Fixpoint nodes_output (flags : indent_flags) (depth : nat) (l : list xml) : str * indent_flags :=
  match l with
  | [] => ([], flags)
  | x :: r => let (s, flags) := node_output flags depth x in let (q, flags) := nodes_output flags depth r in (s ++ q, flags)
  end.

(** has_declaration, :4329-4340. *)
Fixpoint has_declaration (l : list xml) : bool :=
  match l with
  | XDeclaration _ _ _ :: _ => true
  | XElement _ _ _ :: _ => false
  | _ :: r => has_declaration r
  | [] => false
  end.

(** xml_document::save, :7156-7183; PugiDoc::saveStream, PugiDoc.cpp:172-196, without a
    byte order mark. *)
Definition save_document (l : list xml) : str :=
  (if has_declaration l then [] else lit "<?xml version=" ++ ["034"] ++ lit "1.0" ++ ["034"] ++ lit "?>" ++ ["010"]) ++
  let (s, flags) := nodes_output IndentOnly 0 l in
  s ++ match flags with IndentBoth => ["010"] | _ => [] end.
