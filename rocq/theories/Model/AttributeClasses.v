(* The attribute classes of the elements, and which element has which.

   One entry per class of Sourcecode/private/mx/core/elements/*Attributes.cpp
   (and core/EmptyPrintObjectStyleAlignAttributes.cpp), with the lines of its
   constructor, hasValues, toStream and fromXElementImpl.  Members, flags and
   attribute names are spelt as in the source.  Each entry has, in this order:
   the flags the constructor sets to true, the flags hasValues looks at, the
   calls of streamAttribute in the order of toStream (member, attribute name,
   flag), the calls of parseAttribute in the order of fromXElementImpl (member,
   flag, attribute name, declared type of the member), and the flags whose
   absence at the end makes fromXElementImpl fail. *)

From Coq Require Import String List.
From Verif Require Import Model.Attributes.
Import ListNotations.
Open Scope string_scope.

(* core/elements/AccidentalAttributes.cpp:13-109 *)
Definition accidentalAttributes : attributeClass :=
  mkAttributeClass "AccidentalAttributes"
    []
    ["hasCautionary"; "hasEditorial"; "hasParentheses"; "hasBracket"; "hasSize"; "hasDefaultX"; "hasDefaultY"; "hasRelativeX"; "hasRelativeY"; "hasFontFamily"; "hasFontStyle"; "hasFontSize"; "hasFontWeight"]
    [mkWriting "cautionary" "cautionary" "hasCautionary";
     mkWriting "editorial" "editorial" "hasEditorial";
     mkWriting "parentheses" "parentheses" "hasParentheses";
     mkWriting "bracket" "bracket" "hasBracket";
     mkWriting "size" "size" "hasSize";
     mkWriting "defaultX" "default-x" "hasDefaultX";
     mkWriting "defaultY" "default-y" "hasDefaultY";
     mkWriting "relativeX" "relative-x" "hasRelativeX";
     mkWriting "relativeY" "relative-y" "hasRelativeY";
     mkWriting "fontFamily" "font-family" "hasFontFamily";
     mkWriting "fontStyle" "font-style" "hasFontStyle";
     mkWriting "fontSize" "font-size" "hasFontSize";
     mkWriting "fontWeight" "font-weight" "hasFontWeight"]
    [mkReading "cautionary" "hasCautionary" "cautionary" "YesNo";
     mkReading "editorial" "hasEditorial" "editorial" "YesNo";
     mkReading "parentheses" "hasParentheses" "parentheses" "YesNo";
     mkReading "bracket" "hasBracket" "bracket" "YesNo";
     mkReading "size" "hasSize" "size" "SymbolSize";
     mkReading "defaultX" "hasDefaultX" "default-x" "TenthsValue";
     mkReading "defaultY" "hasDefaultY" "default-y" "TenthsValue";
     mkReading "relativeX" "hasRelativeX" "relative-x" "TenthsValue";
     mkReading "relativeY" "hasRelativeY" "relative-y" "TenthsValue";
     mkReading "fontFamily" "hasFontFamily" "font-family" "CommaSeparatedText";
     mkReading "fontStyle" "hasFontStyle" "font-style" "FontStyle";
     mkReading "fontSize" "hasFontSize" "font-size" "FontSize";
     mkReading "fontWeight" "hasFontWeight" "font-weight" "FontWeight"]
    [].

(* core/elements/AccidentalMarkAttributes.cpp:13-89 *)
Definition accidentalMarkAttributes : attributeClass :=
  mkAttributeClass "AccidentalMarkAttributes"
    []
    ["hasDefaultX"; "hasDefaultY"; "hasRelativeX"; "hasRelativeY"; "hasFontFamily"; "hasFontStyle"; "hasFontSize"; "hasFontWeight"; "hasPlacement"]
    [mkWriting "defaultX" "default-x" "hasDefaultX";
     mkWriting "defaultY" "default-y" "hasDefaultY";
     mkWriting "relativeX" "relative-x" "hasRelativeX";
     mkWriting "relativeY" "relative-y" "hasRelativeY";
     mkWriting "fontFamily" "font-family" "hasFontFamily";
     mkWriting "fontStyle" "font-style" "hasFontStyle";
     mkWriting "fontSize" "font-size" "hasFontSize";
     mkWriting "fontWeight" "font-weight" "hasFontWeight";
     mkWriting "placement" "placement" "hasPlacement"]
    [mkReading "defaultX" "hasDefaultX" "default-x" "TenthsValue";
     mkReading "defaultY" "hasDefaultY" "default-y" "TenthsValue";
     mkReading "relativeX" "hasRelativeX" "relative-x" "TenthsValue";
     mkReading "relativeY" "hasRelativeY" "relative-y" "TenthsValue";
     mkReading "fontFamily" "hasFontFamily" "font-family" "CommaSeparatedText";
     mkReading "fontStyle" "hasFontStyle" "font-style" "FontStyle";
     mkReading "fontSize" "hasFontSize" "font-size" "FontSize";
     mkReading "fontWeight" "hasFontWeight" "font-weight" "FontWeight";
     mkReading "placement" "hasPlacement" "placement" "AboveBelow"]
    [].

(* core/elements/AccidentalTextAttributes.cpp:13-141 *)
Definition accidentalTextAttributes : attributeClass :=
  mkAttributeClass "AccidentalTextAttributes"
    []
    ["hasJustify"; "hasDefaultX"; "hasDefaultY"; "hasRelativeX"; "hasRelativeY"; "hasFontFamily"; "hasFontStyle"; "hasFontSize"; "hasFontWeight"; "hasHalign"; "hasUnderline"; "hasOverline"; "hasLineThrough"; "hasRotation"; "hasLetterSpacing"; "hasLineHeight"; "hasLang"; "hasSpace"; "hasEnclosure"]
    [mkWriting "justify" "justify" "hasJustify";
     mkWriting "defaultX" "default-x" "hasDefaultX";
     mkWriting "defaultY" "default-y" "hasDefaultY";
     mkWriting "relativeX" "relative-x" "hasRelativeX";
     mkWriting "relativeY" "relative-y" "hasRelativeY";
     mkWriting "fontFamily" "font-family" "hasFontFamily";
     mkWriting "fontStyle" "font-style" "hasFontStyle";
     mkWriting "fontSize" "font-size" "hasFontSize";
     mkWriting "fontWeight" "font-weight" "hasFontWeight";
     mkWriting "halign" "halign" "hasHalign";
     mkWriting "underline" "underline" "hasUnderline";
     mkWriting "overline" "overline" "hasOverline";
     mkWriting "lineThrough" "line-through" "hasLineThrough";
     mkWriting "rotation" "rotation" "hasRotation";
     mkWriting "letterSpacing" "letter-spacing" "hasLetterSpacing";
     mkWriting "lineHeight" "line-height" "hasLineHeight";
     mkWriting "lang" "xml:lang" "hasLang";
     mkWriting "space" "xml:space" "hasSpace";
     mkWriting "enclosure" "enclosure" "hasEnclosure"]
    [mkReading "justify" "hasJustify" "justify" "LeftCenterRight";
     mkReading "defaultX" "hasDefaultX" "default-x" "TenthsValue";
     mkReading "defaultY" "hasDefaultY" "default-y" "TenthsValue";
     mkReading "relativeX" "hasRelativeX" "relative-x" "TenthsValue";
     mkReading "relativeY" "hasRelativeY" "relative-y" "TenthsValue";
     mkReading "fontFamily" "hasFontFamily" "font-family" "CommaSeparatedText";
     mkReading "fontStyle" "hasFontStyle" "font-style" "FontStyle";
     mkReading "fontSize" "hasFontSize" "font-size" "FontSize";
     mkReading "fontWeight" "hasFontWeight" "font-weight" "FontWeight";
     mkReading "halign" "hasHalign" "halign" "LeftCenterRight";
     mkReading "underline" "hasUnderline" "underline" "NumberOfLines";
     mkReading "overline" "hasOverline" "overline" "NumberOfLines";
     mkReading "lineThrough" "hasLineThrough" "line-through" "NumberOfLines";
     mkReading "rotation" "hasRotation" "rotation" "RotationDegrees";
     mkReading "letterSpacing" "hasLetterSpacing" "letter-spacing" "NumberOrNormal";
     mkReading "lineHeight" "hasLineHeight" "line-height" "NumberOrNormal";
     mkReading "lang" "hasLang" "lang" "XmlLang";
     mkReading "lang" "hasLang" "xml:lang" "XmlLang";
     mkReading "space" "hasSpace" "space" "XmlSpace";
     mkReading "space" "hasSpace" "xml:space" "XmlSpace";
     mkReading "enclosure" "hasEnclosure" "enclosure" "EnclosureShape"]
    [].

(* core/elements/AccordAttributes.cpp:13-49 *)
Definition accordAttributes : attributeClass :=
  mkAttributeClass "AccordAttributes"
    []
    ["hasString"]
    [mkWriting "string" "string" "hasString"]
    [mkReading "string" "hasString" "string" "StringNumber"]
    [].

(* core/elements/AccordionRegistrationAttributes.cpp:13-99 *)
Definition accordionRegistrationAttributes : attributeClass :=
  mkAttributeClass "AccordionRegistrationAttributes"
    []
    ["hasDefaultX"; "hasDefaultY"; "hasRelativeX"; "hasRelativeY"; "hasFontFamily"; "hasFontStyle"; "hasFontSize"; "hasFontWeight"; "hasColor"; "hasHalign"; "hasValign"]
    [mkWriting "defaultX" "default-x" "hasDefaultX";
     mkWriting "defaultY" "default-y" "hasDefaultY";
     mkWriting "relativeX" "relative-x" "hasRelativeX";
     mkWriting "relativeY" "relative-y" "hasRelativeY";
     mkWriting "fontFamily" "font-family" "hasFontFamily";
     mkWriting "fontStyle" "font-style" "hasFontStyle";
     mkWriting "fontSize" "font-size" "hasFontSize";
     mkWriting "fontWeight" "font-weight" "hasFontWeight";
     mkWriting "color" "color" "hasColor";
     mkWriting "halign" "halign" "hasHalign";
     mkWriting "valign" "valign" "hasValign"]
    [mkReading "defaultX" "hasDefaultX" "default-x" "TenthsValue";
     mkReading "defaultY" "hasDefaultY" "default-y" "TenthsValue";
     mkReading "relativeX" "hasRelativeX" "relative-x" "TenthsValue";
     mkReading "relativeY" "hasRelativeY" "relative-y" "TenthsValue";
     mkReading "fontFamily" "hasFontFamily" "font-family" "CommaSeparatedText";
     mkReading "fontStyle" "hasFontStyle" "font-style" "FontStyle";
     mkReading "fontSize" "hasFontSize" "font-size" "FontSize";
     mkReading "fontWeight" "hasFontWeight" "font-weight" "FontWeight";
     mkReading "color" "hasColor" "color" "Color";
     mkReading "halign" "hasHalign" "halign" "LeftCenterRight";
     mkReading "valign" "hasValign" "valign" "Valign"]
    [].

(* core/elements/ArpeggiateAttributes.cpp:13-79 *)
Definition arpeggiateAttributes : attributeClass :=
  mkAttributeClass "ArpeggiateAttributes"
    []
    ["hasNumber"; "hasDirection"; "hasDefaultX"; "hasDefaultY"; "hasRelativeX"; "hasRelativeY"; "hasPlacement"]
    [mkWriting "number" "number" "hasNumber";
     mkWriting "direction" "direction" "hasDirection";
     mkWriting "defaultX" "default-x" "hasDefaultX";
     mkWriting "defaultY" "default-y" "hasDefaultY";
     mkWriting "relativeX" "relative-x" "hasRelativeX";
     mkWriting "relativeY" "relative-y" "hasRelativeY";
     mkWriting "placement" "placement" "hasPlacement"]
    [mkReading "number" "hasNumber" "number" "NumberLevel";
     mkReading "direction" "hasDirection" "direction" "UpDown";
     mkReading "defaultX" "hasDefaultX" "default-x" "TenthsValue";
     mkReading "defaultY" "hasDefaultY" "default-y" "TenthsValue";
     mkReading "relativeX" "hasRelativeX" "relative-x" "TenthsValue";
     mkReading "relativeY" "hasRelativeY" "relative-y" "TenthsValue";
     mkReading "placement" "hasPlacement" "placement" "AboveBelow"]
    [].

(* core/elements/ArrowAttributes.cpp:13-94 *)
Definition arrowAttributes : attributeClass :=
  mkAttributeClass "ArrowAttributes"
    []
    ["hasDefaultX"; "hasDefaultY"; "hasRelativeX"; "hasRelativeY"; "hasFontFamily"; "hasFontStyle"; "hasFontSize"; "hasFontWeight"; "hasColor"; "hasPlacement"]
    [mkWriting "defaultX" "default-x" "hasDefaultX";
     mkWriting "defaultY" "default-y" "hasDefaultY";
     mkWriting "relativeX" "relative-x" "hasRelativeX";
     mkWriting "relativeY" "relative-y" "hasRelativeY";
     mkWriting "fontFamily" "font-family" "hasFontFamily";
     mkWriting "fontStyle" "font-style" "hasFontStyle";
     mkWriting "fontSize" "font-size" "hasFontSize";
     mkWriting "fontWeight" "font-weight" "hasFontWeight";
     mkWriting "color" "color" "hasColor";
     mkWriting "placement" "placement" "hasPlacement"]
    [mkReading "defaultX" "hasDefaultX" "default-x" "TenthsValue";
     mkReading "defaultY" "hasDefaultY" "default-y" "TenthsValue";
     mkReading "relativeX" "hasRelativeX" "relative-x" "TenthsValue";
     mkReading "relativeY" "hasRelativeY" "relative-y" "TenthsValue";
     mkReading "fontFamily" "hasFontFamily" "font-family" "CommaSeparatedText";
     mkReading "fontStyle" "hasFontStyle" "font-style" "FontStyle";
     mkReading "fontSize" "hasFontSize" "font-size" "FontSize";
     mkReading "fontWeight" "hasFontWeight" "font-weight" "FontWeight";
     mkReading "color" "hasColor" "color" "Color";
     mkReading "placement" "hasPlacement" "placement" "AboveBelow"]
    [].

(* core/elements/BarStyleAttributes.cpp:13-49 *)
Definition barStyleAttributes : attributeClass :=
  mkAttributeClass "BarStyleAttributes"
    []
    ["hasColor"]
    [mkWriting "color" "color" "hasColor"]
    [mkReading "color" "hasColor" "color" "Color"]
    [].

(* core/elements/BarlineAttributes.cpp:13-64 *)
Definition barlineAttributes : attributeClass :=
  mkAttributeClass "BarlineAttributes"
    []
    ["hasLocation"; "hasSegno"; "hasCoda"; "hasDivisions"]
    [mkWriting "location" "location" "hasLocation";
     mkWriting "segno" "segno" "hasSegno";
     mkWriting "coda" "coda" "hasCoda";
     mkWriting "divisions" "divisions" "hasDivisions"]
    [mkReading "location" "hasLocation" "location" "RightLeftMiddle";
     mkReading "segno" "hasSegno" "segno" "XsToken";
     mkReading "coda" "hasCoda" "coda" "XsToken";
     mkReading "divisions" "hasDivisions" "divisions" "DivisionsValue"]
    [].

(* core/elements/BarreAttributes.cpp:13-55 *)
Definition barreAttributes : attributeClass :=
  mkAttributeClass "BarreAttributes"
    ["hasType"]
    ["hasType"]
    [mkWriting "type" "type" "hasType"]
    [mkReading "type" "isTypeFound" "type" "StartStop"]
    ["isTypeFound"].

(* core/elements/BassAlterAttributes.cpp:13-94 *)
Definition bassAlterAttributes : attributeClass :=
  mkAttributeClass "BassAlterAttributes"
    []
    ["hasPrintObject"; "hasDefaultX"; "hasDefaultY"; "hasRelativeX"; "hasRelativeY"; "hasFontFamily"; "hasFontStyle"; "hasFontSize"; "hasFontWeight"; "hasLocation"]
    [mkWriting "printObject" "print-object" "hasPrintObject";
     mkWriting "defaultX" "default-x" "hasDefaultX";
     mkWriting "defaultY" "default-y" "hasDefaultY";
     mkWriting "relativeX" "relative-x" "hasRelativeX";
     mkWriting "relativeY" "relative-y" "hasRelativeY";
     mkWriting "fontFamily" "font-family" "hasFontFamily";
     mkWriting "fontStyle" "font-style" "hasFontStyle";
     mkWriting "fontSize" "font-size" "hasFontSize";
     mkWriting "fontWeight" "font-weight" "hasFontWeight";
     mkWriting "location" "location" "hasLocation"]
    [mkReading "printObject" "hasPrintObject" "print-object" "YesNo";
     mkReading "defaultX" "hasDefaultX" "default-x" "TenthsValue";
     mkReading "defaultY" "hasDefaultY" "default-y" "TenthsValue";
     mkReading "relativeX" "hasRelativeX" "relative-x" "TenthsValue";
     mkReading "relativeY" "hasRelativeY" "relative-y" "TenthsValue";
     mkReading "fontFamily" "hasFontFamily" "font-family" "CommaSeparatedText";
     mkReading "fontStyle" "hasFontStyle" "font-style" "FontStyle";
     mkReading "fontSize" "hasFontSize" "font-size" "FontSize";
     mkReading "fontWeight" "hasFontWeight" "font-weight" "FontWeight";
     mkReading "location" "hasLocation" "location" "LeftRight"]
    [].

(* core/elements/BassStepAttributes.cpp:13-89 *)
Definition bassStepAttributes : attributeClass :=
  mkAttributeClass "BassStepAttributes"
    []
    ["hasText"; "hasDefaultX"; "hasDefaultY"; "hasRelativeX"; "hasRelativeY"; "hasFontFamily"; "hasFontStyle"; "hasFontSize"; "hasFontWeight"]
    [mkWriting "text" "text" "hasText";
     mkWriting "defaultX" "default-x" "hasDefaultX";
     mkWriting "defaultY" "default-y" "hasDefaultY";
     mkWriting "relativeX" "relative-x" "hasRelativeX";
     mkWriting "relativeY" "relative-y" "hasRelativeY";
     mkWriting "fontFamily" "font-family" "hasFontFamily";
     mkWriting "fontStyle" "font-style" "hasFontStyle";
     mkWriting "fontSize" "font-size" "hasFontSize";
     mkWriting "fontWeight" "font-weight" "hasFontWeight"]
    [mkReading "text" "hasText" "text" "XsToken";
     mkReading "defaultX" "hasDefaultX" "default-x" "TenthsValue";
     mkReading "defaultY" "hasDefaultY" "default-y" "TenthsValue";
     mkReading "relativeX" "hasRelativeX" "relative-x" "TenthsValue";
     mkReading "relativeY" "hasRelativeY" "relative-y" "TenthsValue";
     mkReading "fontFamily" "hasFontFamily" "font-family" "CommaSeparatedText";
     mkReading "fontStyle" "hasFontStyle" "font-style" "FontStyle";
     mkReading "fontSize" "hasFontSize" "font-size" "FontSize";
     mkReading "fontWeight" "hasFontWeight" "font-weight" "FontWeight"]
    [].

(* core/elements/BeamAttributes.cpp:13-59 *)
Definition beamAttributes : attributeClass :=
  mkAttributeClass "BeamAttributes"
    []
    ["hasNumber"; "hasRepeater"; "hasFan"]
    [mkWriting "number" "number" "hasNumber";
     mkWriting "repeater" "repeater" "hasRepeater";
     mkWriting "fan" "fan" "hasFan"]
    [mkReading "number" "hasNumber" "number" "BeamLevel";
     mkReading "repeater" "hasRepeater" "repeater" "YesNo";
     mkReading "fan" "hasFan" "fan" "Fan"]
    [].

(* core/elements/BeatRepeatAttributes.cpp:13-65 *)
Definition beatRepeatAttributes : attributeClass :=
  mkAttributeClass "BeatRepeatAttributes"
    ["hasType"]
    ["hasType"; "hasSlashes"; "hasUseDots"]
    [mkWriting "type" "type" "hasType";
     mkWriting "slashes" "slashes" "hasSlashes";
     mkWriting "useDots" "use-dots" "hasUseDots"]
    [mkReading "type" "isTypeFound" "type" "StartStop";
     mkReading "slashes" "hasSlashes" "slashes" "PositiveInteger";
     mkReading "useDots" "hasUseDots" "use-dots" "YesNo"]
    ["isTypeFound"].

(* core/elements/BeaterAttributes.cpp:13-49 *)
Definition beaterAttributes : attributeClass :=
  mkAttributeClass "BeaterAttributes"
    []
    ["hasTip"]
    [mkWriting "tip" "tip" "hasTip"]
    [mkReading "tip" "hasTip" "tip" "TipDirection"]
    [].

(* core/elements/BendAttributes.cpp:13-109 *)
Definition bendAttributes : attributeClass :=
  mkAttributeClass "BendAttributes"
    []
    ["hasDefaultX"; "hasDefaultY"; "hasRelativeX"; "hasRelativeY"; "hasFontFamily"; "hasFontStyle"; "hasFontSize"; "hasFontWeight"; "hasColor"; "hasAccelerate"; "hasBeats"; "hasFirstBeat"; "hasLastBeat"]
    [mkWriting "defaultX" "default-x" "hasDefaultX";
     mkWriting "defaultY" "default-y" "hasDefaultY";
     mkWriting "relativeX" "relative-x" "hasRelativeX";
     mkWriting "relativeY" "relative-y" "hasRelativeY";
     mkWriting "fontFamily" "font-family" "hasFontFamily";
     mkWriting "fontStyle" "font-style" "hasFontStyle";
     mkWriting "fontSize" "font-size" "hasFontSize";
     mkWriting "fontWeight" "font-weight" "hasFontWeight";
     mkWriting "color" "color" "hasColor";
     mkWriting "accelerate" "accelerate" "hasAccelerate";
     mkWriting "beats" "beats" "hasBeats";
     mkWriting "firstBeat" "first-beat" "hasFirstBeat";
     mkWriting "lastBeat" "last-beat" "hasLastBeat"]
    [mkReading "defaultX" "hasDefaultX" "default-x" "TenthsValue";
     mkReading "defaultY" "hasDefaultY" "default-y" "TenthsValue";
     mkReading "relativeX" "hasRelativeX" "relative-x" "TenthsValue";
     mkReading "relativeY" "hasRelativeY" "relative-y" "TenthsValue";
     mkReading "fontFamily" "hasFontFamily" "font-family" "CommaSeparatedText";
     mkReading "fontStyle" "hasFontStyle" "font-style" "FontStyle";
     mkReading "fontSize" "hasFontSize" "font-size" "FontSize";
     mkReading "fontWeight" "hasFontWeight" "font-weight" "FontWeight";
     mkReading "color" "hasColor" "color" "Color";
     mkReading "accelerate" "hasAccelerate" "accelerate" "YesNo";
     mkReading "beats" "hasBeats" "beats" "TrillBeats";
     mkReading "firstBeat" "hasFirstBeat" "first-beat" "Percent";
     mkReading "lastBeat" "hasLastBeat" "last-beat" "Percent"]
    [].

(* core/elements/BookmarkAttributes.cpp:13-70 *)
Definition bookmarkAttributes : attributeClass :=
  mkAttributeClass "BookmarkAttributes"
    ["hasId"]
    ["hasId"; "hasName"; "hasElement"; "hasPosition"]
    [mkWriting "id" "id" "hasId";
     mkWriting "name" "name" "hasName";
     mkWriting "element" "element" "hasElement";
     mkWriting "position" "position" "hasPosition"]
    [mkReading "id" "isIdFound" "id" "XsID";
     mkReading "name" "hasName" "name" "XsToken";
     mkReading "element" "hasElement" "element" "XsNMToken";
     mkReading "position" "hasPosition" "position" "PositiveInteger"]
    ["isIdFound"].

(* core/elements/BracketAttributes.cpp:13-96 *)
Definition bracketAttributes : attributeClass :=
  mkAttributeClass "BracketAttributes"
    ["hasType"; "hasLineEnd"]
    ["hasType"; "hasLineEnd"]
    [mkWriting "type" "type" "hasType";
     mkWriting "number" "number" "hasNumber";
     mkWriting "lineEnd" "line-end" "hasLineEnd";
     mkWriting "endLength" "end-length" "hasEndLength";
     mkWriting "lineType" "line-type" "hasLineType";
     mkWriting "dashLength" "dash-length" "hasDashLength";
     mkWriting "spaceLength" "space-length" "hasSpaceLength";
     mkWriting "defaultX" "default-x" "hasDefaultX";
     mkWriting "defaultY" "default-y" "hasDefaultY";
     mkWriting "relativeX" "relative-x" "hasRelativeX";
     mkWriting "relativeY" "relative-y" "hasRelativeY";
     mkWriting "color" "color" "hasColor"]
    [mkReading "type" "isTypeFound" "type" "StartStopContinue";
     mkReading "number" "hasNumber" "number" "NumberLevel";
     mkReading "lineEnd" "isLineEndFound" "line-end" "LineEnd";
     mkReading "endLength" "hasEndLength" "end-length" "TenthsValue";
     mkReading "lineType" "hasLineType" "line-type" "LineType";
     mkReading "dashLength" "hasDashLength" "dash-length" "TenthsValue";
     mkReading "spaceLength" "hasSpaceLength" "space-length" "TenthsValue";
     mkReading "defaultX" "hasDefaultX" "default-x" "TenthsValue";
     mkReading "defaultY" "hasDefaultY" "default-y" "TenthsValue";
     mkReading "relativeX" "hasRelativeX" "relative-x" "TenthsValue";
     mkReading "relativeY" "hasRelativeY" "relative-y" "TenthsValue";
     mkReading "color" "hasColor" "color" "Color"]
    [].

(* core/elements/BreathMarkAttributes.cpp:13-89 *)
Definition breathMarkAttributes : attributeClass :=
  mkAttributeClass "BreathMarkAttributes"
    []
    ["hasDefaultX"; "hasDefaultY"; "hasRelativeX"; "hasRelativeY"; "hasFontFamily"; "hasFontStyle"; "hasFontSize"; "hasFontWeight"; "hasPlacement"]
    [mkWriting "defaultX" "default-x" "hasDefaultX";
     mkWriting "defaultY" "default-y" "hasDefaultY";
     mkWriting "relativeX" "relative-x" "hasRelativeX";
     mkWriting "relativeY" "relative-y" "hasRelativeY";
     mkWriting "fontFamily" "font-family" "hasFontFamily";
     mkWriting "fontStyle" "font-style" "hasFontStyle";
     mkWriting "fontSize" "font-size" "hasFontSize";
     mkWriting "fontWeight" "font-weight" "hasFontWeight";
     mkWriting "placement" "placement" "hasPlacement"]
    [mkReading "defaultX" "hasDefaultX" "default-x" "TenthsValue";
     mkReading "defaultY" "hasDefaultY" "default-y" "TenthsValue";
     mkReading "relativeX" "hasRelativeX" "relative-x" "TenthsValue";
     mkReading "relativeY" "hasRelativeY" "relative-y" "TenthsValue";
     mkReading "fontFamily" "hasFontFamily" "font-family" "CommaSeparatedText";
     mkReading "fontStyle" "hasFontStyle" "font-style" "FontStyle";
     mkReading "fontSize" "hasFontSize" "font-size" "FontSize";
     mkReading "fontWeight" "hasFontWeight" "font-weight" "FontWeight";
     mkReading "placement" "hasPlacement" "placement" "AboveBelow"]
    [].

(* core/elements/CancelAttributes.cpp:13-49 *)
Definition cancelAttributes : attributeClass :=
  mkAttributeClass "CancelAttributes"
    []
    ["hasLocation"]
    [mkWriting "location" "location" "hasLocation"]
    [mkReading "location" "hasLocation" "location" "CancelLocation"]
    [].

(* core/elements/ClefAttributes.cpp:13-114 *)
Definition clefAttributes : attributeClass :=
  mkAttributeClass "ClefAttributes"
    []
    ["hasNumber"; "hasAdditional"; "hasSize"; "hasAfterBarline"; "hasDefaultX"; "hasDefaultY"; "hasRelativeX"; "hasRelativeY"; "hasFontFamily"; "hasFontStyle"; "hasFontSize"; "hasFontWeight"; "hasColor"; "hasPrintObject"]
    [mkWriting "number" "number" "hasNumber";
     mkWriting "additional" "additional" "hasAdditional";
     mkWriting "size" "size" "hasSize";
     mkWriting "afterBarline" "after-barline" "hasAfterBarline";
     mkWriting "defaultX" "default-x" "hasDefaultX";
     mkWriting "defaultY" "default-y" "hasDefaultY";
     mkWriting "relativeX" "relative-x" "hasRelativeX";
     mkWriting "relativeY" "relative-y" "hasRelativeY";
     mkWriting "fontFamily" "font-family" "hasFontFamily";
     mkWriting "fontStyle" "font-style" "hasFontStyle";
     mkWriting "fontSize" "font-size" "hasFontSize";
     mkWriting "fontWeight" "font-weight" "hasFontWeight";
     mkWriting "color" "color" "hasColor";
     mkWriting "printObject" "print-object" "hasPrintObject"]
    [mkReading "number" "hasNumber" "number" "StaffNumber";
     mkReading "additional" "hasAdditional" "additional" "YesNo";
     mkReading "size" "hasSize" "size" "SymbolSize";
     mkReading "afterBarline" "hasAfterBarline" "after-barline" "YesNo";
     mkReading "defaultX" "hasDefaultX" "default-x" "TenthsValue";
     mkReading "defaultY" "hasDefaultY" "default-y" "TenthsValue";
     mkReading "relativeX" "hasRelativeX" "relative-x" "TenthsValue";
     mkReading "relativeY" "hasRelativeY" "relative-y" "TenthsValue";
     mkReading "fontFamily" "hasFontFamily" "font-family" "CommaSeparatedText";
     mkReading "fontStyle" "hasFontStyle" "font-style" "FontStyle";
     mkReading "fontSize" "hasFontSize" "font-size" "FontSize";
     mkReading "fontWeight" "hasFontWeight" "font-weight" "FontWeight";
     mkReading "color" "hasColor" "color" "Color";
     mkReading "printObject" "hasPrintObject" "print-object" "YesNo"]
    [].

(* core/elements/CreatorAttributes.cpp:13-49 *)
Definition creatorAttributes : attributeClass :=
  mkAttributeClass "CreatorAttributes"
    []
    ["hasType"]
    [mkWriting "type" "type" "hasType"]
    [mkReading "type" "hasType" "type" "XsToken"]
    [].

(* core/elements/CreditAttributes.cpp:13-49 *)
Definition creditAttributes : attributeClass :=
  mkAttributeClass "CreditAttributes"
    []
    ["hasPage"]
    [mkWriting "page" "page" "hasPage"]
    [mkReading "page" "hasPage" "page" "PositiveInteger"]
    [].

(* core/elements/CreditImageAttributes.cpp:13-91 *)
Definition creditImageAttributes : attributeClass :=
  mkAttributeClass "CreditImageAttributes"
    ["hasSource"; "hasType"]
    ["hasSource"; "hasType"; "hasDefaultX"; "hasDefaultY"; "hasRelativeX"; "hasRelativeY"; "hasHalign"]
    [mkWriting "source" "source" "hasSource";
     mkWriting "type" "type" "hasType";
     mkWriting "defaultX" "default-x" "hasDefaultX";
     mkWriting "defaultY" "default-y" "hasDefaultY";
     mkWriting "relativeX" "relative-x" "hasRelativeX";
     mkWriting "relativeY" "relative-y" "hasRelativeY";
     mkWriting "halign" "halign" "hasHalign"]
    [mkReading "source" "isSourceFound" "source" "XsAnyUri";
     mkReading "type" "isTypeFound" "type" "XsToken";
     mkReading "defaultX" "hasDefaultX" "default-x" "TenthsValue";
     mkReading "defaultY" "hasDefaultY" "default-y" "TenthsValue";
     mkReading "relativeX" "hasRelativeX" "relative-x" "TenthsValue";
     mkReading "relativeY" "hasRelativeY" "relative-y" "TenthsValue";
     mkReading "halign" "hasHalign" "halign" "LeftCenterRight"]
    ["isSourceFound"; "isTypeFound"].

(* core/elements/CreditWordsAttributes.cpp:13-151 *)
Definition creditWordsAttributes : attributeClass :=
  mkAttributeClass "CreditWordsAttributes"
    []
    ["hasJustify"; "hasDefaultX"; "hasDefaultY"; "hasRelativeX"; "hasRelativeY"; "hasFontFamily"; "hasFontStyle"; "hasFontSize"; "hasFontWeight"; "hasColor"; "hasHalign"; "hasValign"; "hasUnderline"; "hasOverline"; "hasLineThrough"; "hasRotation"; "hasLetterSpacing"; "hasLineHeight"; "hasLang"; "hasSpace"; "hasEnclosure"]
    [mkWriting "justify" "justify" "hasJustify";
     mkWriting "defaultX" "default-x" "hasDefaultX";
     mkWriting "defaultY" "default-y" "hasDefaultY";
     mkWriting "relativeX" "relative-x" "hasRelativeX";
     mkWriting "relativeY" "relative-y" "hasRelativeY";
     mkWriting "fontFamily" "font-family" "hasFontFamily";
     mkWriting "fontStyle" "font-style" "hasFontStyle";
     mkWriting "fontSize" "font-size" "hasFontSize";
     mkWriting "fontWeight" "font-weight" "hasFontWeight";
     mkWriting "color" "color" "hasColor";
     mkWriting "halign" "halign" "hasHalign";
     mkWriting "valign" "valign" "hasValign";
     mkWriting "underline" "underline" "hasUnderline";
     mkWriting "overline" "overline" "hasOverline";
     mkWriting "lineThrough" "line-through" "hasLineThrough";
     mkWriting "rotation" "rotation" "hasRotation";
     mkWriting "letterSpacing" "letter-spacing" "hasLetterSpacing";
     mkWriting "lineHeight" "line-height" "hasLineHeight";
     mkWriting "lang" "xml:lang" "hasLang";
     mkWriting "space" "xml:space" "hasSpace";
     mkWriting "enclosure" "enclosure" "hasEnclosure"]
    [mkReading "justify" "hasJustify" "justify" "LeftCenterRight";
     mkReading "defaultX" "hasDefaultX" "default-x" "TenthsValue";
     mkReading "defaultY" "hasDefaultY" "default-y" "TenthsValue";
     mkReading "relativeX" "hasRelativeX" "relative-x" "TenthsValue";
     mkReading "relativeY" "hasRelativeY" "relative-y" "TenthsValue";
     mkReading "fontFamily" "hasFontFamily" "font-family" "CommaSeparatedText";
     mkReading "fontStyle" "hasFontStyle" "font-style" "FontStyle";
     mkReading "fontSize" "hasFontSize" "font-size" "FontSize";
     mkReading "fontWeight" "hasFontWeight" "font-weight" "FontWeight";
     mkReading "color" "hasColor" "color" "Color";
     mkReading "halign" "hasHalign" "halign" "LeftCenterRight";
     mkReading "valign" "hasValign" "valign" "Valign";
     mkReading "underline" "hasUnderline" "underline" "NumberOfLines";
     mkReading "overline" "hasOverline" "overline" "NumberOfLines";
     mkReading "lineThrough" "hasLineThrough" "line-through" "NumberOfLines";
     mkReading "rotation" "hasRotation" "rotation" "RotationDegrees";
     mkReading "letterSpacing" "hasLetterSpacing" "letter-spacing" "NumberOrNormal";
     mkReading "lineHeight" "hasLineHeight" "line-height" "NumberOrNormal";
     mkReading "lang" "hasLang" "lang" "XmlLang";
     mkReading "lang" "hasLang" "xml:lang" "XmlLang";
     mkReading "space" "hasSpace" "space" "XmlSpace";
     mkReading "space" "hasSpace" "xml:space" "XmlSpace";
     mkReading "enclosure" "hasEnclosure" "enclosure" "EnclosureShape"]
    [].

(* core/elements/DashesAttributes.cpp:13-90 *)
Definition dashesAttributes : attributeClass :=
  mkAttributeClass "DashesAttributes"
    ["hasType"]
    ["hasType"; "hasNumber"; "hasDashLength"; "hasSpaceLength"; "hasDefaultX"; "hasDefaultY"; "hasRelativeX"; "hasRelativeY"]
    [mkWriting "type" "type" "hasType";
     mkWriting "number" "number" "hasNumber";
     mkWriting "dashLength" "dash-length" "hasDashLength";
     mkWriting "spaceLength" "space-length" "hasSpaceLength";
     mkWriting "defaultX" "default-x" "hasDefaultX";
     mkWriting "defaultY" "default-y" "hasDefaultY";
     mkWriting "relativeX" "relative-x" "hasRelativeX";
     mkWriting "relativeY" "relative-y" "hasRelativeY"]
    [mkReading "type" "isTypeFound" "type" "StartStopContinue";
     mkReading "number" "hasNumber" "number" "NumberLevel";
     mkReading "dashLength" "hasDashLength" "dash-length" "TenthsValue";
     mkReading "spaceLength" "hasSpaceLength" "space-length" "TenthsValue";
     mkReading "defaultX" "hasDefaultX" "default-x" "TenthsValue";
     mkReading "defaultY" "hasDefaultY" "default-y" "TenthsValue";
     mkReading "relativeX" "hasRelativeX" "relative-x" "TenthsValue";
     mkReading "relativeY" "hasRelativeY" "relative-y" "TenthsValue"]
    ["isTypeFound"].

(* core/elements/DegreeAlterAttributes.cpp:13-89 *)
Definition degreeAlterAttributes : attributeClass :=
  mkAttributeClass "DegreeAlterAttributes"
    []
    ["hasDefaultX"; "hasDefaultY"; "hasRelativeX"; "hasRelativeY"; "hasFontFamily"; "hasFontStyle"; "hasFontSize"; "hasFontWeight"; "hasPlusMinus"]
    [mkWriting "defaultX" "default-x" "hasDefaultX";
     mkWriting "defaultY" "default-y" "hasDefaultY";
     mkWriting "relativeX" "relative-x" "hasRelativeX";
     mkWriting "relativeY" "relative-y" "hasRelativeY";
     mkWriting "fontFamily" "font-family" "hasFontFamily";
     mkWriting "fontStyle" "font-style" "hasFontStyle";
     mkWriting "fontSize" "font-size" "hasFontSize";
     mkWriting "fontWeight" "font-weight" "hasFontWeight";
     mkWriting "plusMinus" "plus-minus" "hasPlusMinus"]
    [mkReading "defaultX" "hasDefaultX" "default-x" "TenthsValue";
     mkReading "defaultY" "hasDefaultY" "default-y" "TenthsValue";
     mkReading "relativeX" "hasRelativeX" "relative-x" "TenthsValue";
     mkReading "relativeY" "hasRelativeY" "relative-y" "TenthsValue";
     mkReading "fontFamily" "hasFontFamily" "font-family" "CommaSeparatedText";
     mkReading "fontStyle" "hasFontStyle" "font-style" "FontStyle";
     mkReading "fontSize" "hasFontSize" "font-size" "FontSize";
     mkReading "fontWeight" "hasFontWeight" "font-weight" "FontWeight";
     mkReading "plusMinus" "hasPlusMinus" "plus-minus" "YesNo"]
    [].

(* core/elements/DegreeAttributes.cpp:13-49 *)
Definition degreeAttributes : attributeClass :=
  mkAttributeClass "DegreeAttributes"
    []
    ["hasPrintObject"]
    [mkWriting "printObject" "print-object" "hasPrintObject"]
    [mkReading "printObject" "hasPrintObject" "print-object" "YesNo"]
    [].

(* core/elements/DegreeTypeAttributes.cpp:13-89 *)
Definition degreeTypeAttributes : attributeClass :=
  mkAttributeClass "DegreeTypeAttributes"
    []
    ["hasText"; "hasDefaultX"; "hasDefaultY"; "hasRelativeX"; "hasRelativeY"; "hasFontFamily"; "hasFontStyle"; "hasFontSize"; "hasFontWeight"]
    [mkWriting "text" "text" "hasText";
     mkWriting "defaultX" "default-x" "hasDefaultX";
     mkWriting "defaultY" "default-y" "hasDefaultY";
     mkWriting "relativeX" "relative-x" "hasRelativeX";
     mkWriting "relativeY" "relative-y" "hasRelativeY";
     mkWriting "fontFamily" "font-family" "hasFontFamily";
     mkWriting "fontStyle" "font-style" "hasFontStyle";
     mkWriting "fontSize" "font-size" "hasFontSize";
     mkWriting "fontWeight" "font-weight" "hasFontWeight"]
    [mkReading "text" "hasText" "text" "XsToken";
     mkReading "defaultX" "hasDefaultX" "default-x" "TenthsValue";
     mkReading "defaultY" "hasDefaultY" "default-y" "TenthsValue";
     mkReading "relativeX" "hasRelativeX" "relative-x" "TenthsValue";
     mkReading "relativeY" "hasRelativeY" "relative-y" "TenthsValue";
     mkReading "fontFamily" "hasFontFamily" "font-family" "CommaSeparatedText";
     mkReading "fontStyle" "hasFontStyle" "font-style" "FontStyle";
     mkReading "fontSize" "hasFontSize" "font-size" "FontSize";
     mkReading "fontWeight" "hasFontWeight" "font-weight" "FontWeight"]
    [].

(* core/elements/DegreeValueAttributes.cpp:13-94 *)
Definition degreeValueAttributes : attributeClass :=
  mkAttributeClass "DegreeValueAttributes"
    []
    ["hasSymbol"; "hasText"; "hasDefaultX"; "hasDefaultY"; "hasRelativeX"; "hasRelativeY"; "hasFontFamily"; "hasFontStyle"; "hasFontSize"; "hasFontWeight"]
    [mkWriting "symbol" "symbol" "hasSymbol";
     mkWriting "text" "text" "hasText";
     mkWriting "defaultX" "default-x" "hasDefaultX";
     mkWriting "defaultY" "default-y" "hasDefaultY";
     mkWriting "relativeX" "relative-x" "hasRelativeX";
     mkWriting "relativeY" "relative-y" "hasRelativeY";
     mkWriting "fontFamily" "font-family" "hasFontFamily";
     mkWriting "fontStyle" "font-style" "hasFontStyle";
     mkWriting "fontSize" "font-size" "hasFontSize";
     mkWriting "fontWeight" "font-weight" "hasFontWeight"]
    [mkReading "symbol" "hasSymbol" "symbol" "DegreeSymbolValue";
     mkReading "text" "hasText" "text" "XsToken";
     mkReading "defaultX" "hasDefaultX" "default-x" "TenthsValue";
     mkReading "defaultY" "hasDefaultY" "default-y" "TenthsValue";
     mkReading "relativeX" "hasRelativeX" "relative-x" "TenthsValue";
     mkReading "relativeY" "hasRelativeY" "relative-y" "TenthsValue";
     mkReading "fontFamily" "hasFontFamily" "font-family" "CommaSeparatedText";
     mkReading "fontStyle" "hasFontStyle" "font-style" "FontStyle";
     mkReading "fontSize" "hasFontSize" "font-size" "FontSize";
     mkReading "fontWeight" "hasFontWeight" "font-weight" "FontWeight"]
    [].

(* core/elements/DelayedInvertedTurnAttributes.cpp:13-129 *)
Definition delayedInvertedTurnAttributes : attributeClass :=
  mkAttributeClass "DelayedInvertedTurnAttributes"
    []
    ["hasDefaultX"; "hasDefaultY"; "hasRelativeX"; "hasRelativeY"; "hasFontFamily"; "hasFontStyle"; "hasFontSize"; "hasFontWeight"; "hasPlacement"; "hasStartNote"; "hasTrillStep"; "hasTwoNoteTurn"; "hasAccelerate"; "hasBeats"; "hasSecondBeat"; "hasLastBeat"; "hasSlash"]
    [mkWriting "defaultX" "default-x" "hasDefaultX";
     mkWriting "defaultY" "default-y" "hasDefaultY";
     mkWriting "relativeX" "relative-x" "hasRelativeX";
     mkWriting "relativeY" "relative-y" "hasRelativeY";
     mkWriting "fontFamily" "font-family" "hasFontFamily";
     mkWriting "fontStyle" "font-style" "hasFontStyle";
     mkWriting "fontSize" "font-size" "hasFontSize";
     mkWriting "fontWeight" "font-weight" "hasFontWeight";
     mkWriting "placement" "placement" "hasPlacement";
     mkWriting "startNote" "start-note" "hasStartNote";
     mkWriting "trillStep" "trill-step" "hasTrillStep";
     mkWriting "twoNoteTurn" "two-note-turn" "hasTwoNoteTurn";
     mkWriting "accelerate" "accelerate" "hasAccelerate";
     mkWriting "beats" "beats" "hasBeats";
     mkWriting "secondBeat" "second-beat" "hasSecondBeat";
     mkWriting "lastBeat" "last-beat" "hasLastBeat";
     mkWriting "slash" "slash" "hasSlash"]
    [mkReading "defaultX" "hasDefaultX" "default-x" "TenthsValue";
     mkReading "defaultY" "hasDefaultY" "default-y" "TenthsValue";
     mkReading "relativeX" "hasRelativeX" "relative-x" "TenthsValue";
     mkReading "relativeY" "hasRelativeY" "relative-y" "TenthsValue";
     mkReading "fontFamily" "hasFontFamily" "font-family" "CommaSeparatedText";
     mkReading "fontStyle" "hasFontStyle" "font-style" "FontStyle";
     mkReading "fontSize" "hasFontSize" "font-size" "FontSize";
     mkReading "fontWeight" "hasFontWeight" "font-weight" "FontWeight";
     mkReading "placement" "hasPlacement" "placement" "AboveBelow";
     mkReading "startNote" "hasStartNote" "start-note" "StartNote";
     mkReading "trillStep" "hasTrillStep" "trill-step" "TrillStep";
     mkReading "twoNoteTurn" "hasTwoNoteTurn" "two-note-turn" "TwoNoteTurn";
     mkReading "accelerate" "hasAccelerate" "accelerate" "YesNo";
     mkReading "beats" "hasBeats" "beats" "TrillBeats";
     mkReading "secondBeat" "hasSecondBeat" "second-beat" "Percent";
     mkReading "lastBeat" "hasLastBeat" "last-beat" "Percent";
     mkReading "slash" "hasSlash" "slash" "YesNo"]
    [].

(* core/elements/DelayedTurnAttributes.cpp:13-129 *)
Definition delayedTurnAttributes : attributeClass :=
  mkAttributeClass "DelayedTurnAttributes"
    []
    ["hasDefaultX"; "hasDefaultY"; "hasRelativeX"; "hasRelativeY"; "hasFontFamily"; "hasFontStyle"; "hasFontSize"; "hasFontWeight"; "hasPlacement"; "hasStartNote"; "hasTrillStep"; "hasTwoNoteTurn"; "hasAccelerate"; "hasBeats"; "hasSecondBeat"; "hasLastBeat"; "hasSlash"]
    [mkWriting "defaultX" "default-x" "hasDefaultX";
     mkWriting "defaultY" "default-y" "hasDefaultY";
     mkWriting "relativeX" "relative-x" "hasRelativeX";
     mkWriting "relativeY" "relative-y" "hasRelativeY";
     mkWriting "fontFamily" "font-family" "hasFontFamily";
     mkWriting "fontStyle" "font-style" "hasFontStyle";
     mkWriting "fontSize" "font-size" "hasFontSize";
     mkWriting "fontWeight" "font-weight" "hasFontWeight";
     mkWriting "placement" "placement" "hasPlacement";
     mkWriting "startNote" "start-note" "hasStartNote";
     mkWriting "trillStep" "trill-step" "hasTrillStep";
     mkWriting "twoNoteTurn" "two-note-turn" "hasTwoNoteTurn";
     mkWriting "accelerate" "accelerate" "hasAccelerate";
     mkWriting "beats" "beats" "hasBeats";
     mkWriting "secondBeat" "second-beat" "hasSecondBeat";
     mkWriting "lastBeat" "last-beat" "hasLastBeat";
     mkWriting "slash" "slash" "hasSlash"]
    [mkReading "defaultX" "hasDefaultX" "default-x" "TenthsValue";
     mkReading "defaultY" "hasDefaultY" "default-y" "TenthsValue";
     mkReading "relativeX" "hasRelativeX" "relative-x" "TenthsValue";
     mkReading "relativeY" "hasRelativeY" "relative-y" "TenthsValue";
     mkReading "fontFamily" "hasFontFamily" "font-family" "CommaSeparatedText";
     mkReading "fontStyle" "hasFontStyle" "font-style" "FontStyle";
     mkReading "fontSize" "hasFontSize" "font-size" "FontSize";
     mkReading "fontWeight" "hasFontWeight" "font-weight" "FontWeight";
     mkReading "placement" "hasPlacement" "placement" "AboveBelow";
     mkReading "startNote" "hasStartNote" "start-note" "StartNote";
     mkReading "trillStep" "hasTrillStep" "trill-step" "TrillStep";
     mkReading "twoNoteTurn" "hasTwoNoteTurn" "two-note-turn" "TwoNoteTurn";
     mkReading "accelerate" "hasAccelerate" "accelerate" "YesNo";
     mkReading "beats" "hasBeats" "beats" "TrillBeats";
     mkReading "secondBeat" "hasSecondBeat" "second-beat" "Percent";
     mkReading "lastBeat" "hasLastBeat" "last-beat" "Percent";
     mkReading "slash" "hasSlash" "slash" "YesNo"]
    [].

(* core/elements/DirectionAttributes.cpp:13-54 *)
Definition directionAttributes : attributeClass :=
  mkAttributeClass "DirectionAttributes"
    []
    ["hasPlacement"; "hasDirective"]
    [mkWriting "placement" "placement" "hasPlacement";
     mkWriting "directive" "directive" "hasDirective"]
    [mkReading "placement" "hasPlacement" "placement" "AboveBelow";
     mkReading "directive" "hasDirective" "directive" "YesNo"]
    [].

(* core/elements/DirectiveAttributes.cpp:13-90 *)
Definition directiveAttributes : attributeClass :=
  mkAttributeClass "DirectiveAttributes"
    []
    ["hasDefaultX"; "hasDefaultY"; "hasRelativeX"; "hasRelativeY"; "hasFontFamily"; "hasFontStyle"; "hasFontSize"; "hasFontWeight"; "hasLang"]
    [mkWriting "defaultX" "default-x" "hasDefaultX";
     mkWriting "defaultY" "default-y" "hasDefaultY";
     mkWriting "relativeX" "relative-x" "hasRelativeX";
     mkWriting "relativeY" "relative-y" "hasRelativeY";
     mkWriting "fontFamily" "font-family" "hasFontFamily";
     mkWriting "fontStyle" "font-style" "hasFontStyle";
     mkWriting "fontSize" "font-size" "hasFontSize";
     mkWriting "fontWeight" "font-weight" "hasFontWeight";
     mkWriting "lang" "xml:lang" "hasLang"]
    [mkReading "defaultX" "hasDefaultX" "default-x" "TenthsValue";
     mkReading "defaultY" "hasDefaultY" "default-y" "TenthsValue";
     mkReading "relativeX" "hasRelativeX" "relative-x" "TenthsValue";
     mkReading "relativeY" "hasRelativeY" "relative-y" "TenthsValue";
     mkReading "fontFamily" "hasFontFamily" "font-family" "CommaSeparatedText";
     mkReading "fontStyle" "hasFontStyle" "font-style" "FontStyle";
     mkReading "fontSize" "hasFontSize" "font-size" "FontSize";
     mkReading "fontWeight" "hasFontWeight" "font-weight" "FontWeight";
     mkReading "lang" "hasLang" "lang" "XmlLang";
     mkReading "lang" "hasLang" "xml:lang" "XmlLang"]
    [].

(* core/elements/DisplayTextAttributes.cpp:13-141 *)
Definition displayTextAttributes : attributeClass :=
  mkAttributeClass "DisplayTextAttributes"
    []
    ["hasJustify"; "hasDefaultX"; "hasDefaultY"; "hasRelativeX"; "hasRelativeY"; "hasFontFamily"; "hasFontStyle"; "hasFontSize"; "hasFontWeight"; "hasHalign"; "hasUnderline"; "hasOverline"; "hasLineThrough"; "hasRotation"; "hasLetterSpacing"; "hasLineHeight"; "hasLang"; "hasSpace"; "hasEnclosure"]
    [mkWriting "justify" "justify" "hasJustify";
     mkWriting "defaultX" "default-x" "hasDefaultX";
     mkWriting "defaultY" "default-y" "hasDefaultY";
     mkWriting "relativeX" "relative-x" "hasRelativeX";
     mkWriting "relativeY" "relative-y" "hasRelativeY";
     mkWriting "fontFamily" "font-family" "hasFontFamily";
     mkWriting "fontStyle" "font-style" "hasFontStyle";
     mkWriting "fontSize" "font-size" "hasFontSize";
     mkWriting "fontWeight" "font-weight" "hasFontWeight";
     mkWriting "halign" "halign" "hasHalign";
     mkWriting "underline" "underline" "hasUnderline";
     mkWriting "overline" "overline" "hasOverline";
     mkWriting "lineThrough" "line-through" "hasLineThrough";
     mkWriting "rotation" "rotation" "hasRotation";
     mkWriting "letterSpacing" "letter-spacing" "hasLetterSpacing";
     mkWriting "lineHeight" "line-height" "hasLineHeight";
     mkWriting "lang" "xml:lang" "hasLang";
     mkWriting "space" "xml:space" "hasSpace";
     mkWriting "enclosure" "enclosure" "hasEnclosure"]
    [mkReading "justify" "hasJustify" "justify" "LeftCenterRight";
     mkReading "defaultX" "hasDefaultX" "default-x" "TenthsValue";
     mkReading "defaultY" "hasDefaultY" "default-y" "TenthsValue";
     mkReading "relativeX" "hasRelativeX" "relative-x" "TenthsValue";
     mkReading "relativeY" "hasRelativeY" "relative-y" "TenthsValue";
     mkReading "fontFamily" "hasFontFamily" "font-family" "CommaSeparatedText";
     mkReading "fontStyle" "hasFontStyle" "font-style" "FontStyle";
     mkReading "fontSize" "hasFontSize" "font-size" "FontSize";
     mkReading "fontWeight" "hasFontWeight" "font-weight" "FontWeight";
     mkReading "halign" "hasHalign" "halign" "LeftCenterRight";
     mkReading "underline" "hasUnderline" "underline" "NumberOfLines";
     mkReading "overline" "hasOverline" "overline" "NumberOfLines";
     mkReading "lineThrough" "hasLineThrough" "line-through" "NumberOfLines";
     mkReading "rotation" "hasRotation" "rotation" "RotationDegrees";
     mkReading "letterSpacing" "hasLetterSpacing" "letter-spacing" "NumberOrNormal";
     mkReading "lineHeight" "hasLineHeight" "line-height" "NumberOrNormal";
     mkReading "lang" "hasLang" "lang" "XmlLang";
     mkReading "lang" "hasLang" "xml:lang" "XmlLang";
     mkReading "space" "hasSpace" "space" "XmlSpace";
     mkReading "space" "hasSpace" "xml:space" "XmlSpace";
     mkReading "enclosure" "hasEnclosure" "enclosure" "EnclosureShape"]
    [].

(* core/elements/DistanceAttributes.cpp:13-55 *)
Definition distanceAttributes : attributeClass :=
  mkAttributeClass "DistanceAttributes"
    ["hasType"]
    ["hasType"]
    [mkWriting "type" "type" "hasType"]
    [mkReading "type" "isTypeFound" "type" "DistanceType"]
    ["isTypeFound"].

(* core/elements/DynamicsAttributes.cpp:13-108 *)
Definition dynamicsAttributes : attributeClass :=
  mkAttributeClass "DynamicsAttributes"
    []
    ["hasDefaultX"; "hasDefaultY"; "hasRelativeX"; "hasRelativeY"; "hasFontFamily"; "hasFontStyle"; "hasFontSize"; "hasFontWeight"; "hasColor"; "hasHalign"; "hasValign"; "hasPlacement"; "hasUnderline"; "hasOverline"; "hasLineThrough"; "hasEnclosure"]
    [mkWriting "defaultX" "default-x" "hasDefaultX";
     mkWriting "defaultY" "default-y" "hasDefaultY";
     mkWriting "relativeX" "relative-x" "hasRelativeX";
     mkWriting "relativeY" "relative-y" "hasRelativeY";
     mkWriting "fontFamily" "font-family" "hasFontFamily";
     mkWriting "fontStyle" "font-style" "hasFontStyle";
     mkWriting "fontSize" "font-size" "hasFontSize";
     mkWriting "fontWeight" "font-weight" "hasFontWeight";
     mkWriting "color" "color" "hasColor";
     mkWriting "halign" "halign" "hasHalign";
     mkWriting "valign" "valign" "hasValign";
     mkWriting "placement" "placement" "hasPlacement";
     mkWriting "underline" "underline" "hasUnderline";
     mkWriting "overline" "overline" "hasOverline";
     mkWriting "lineThrough" "line-through" "hasLineThrough";
     mkWriting "enclosure" "enclosure" "hasEnclosure"]
    [mkReading "defaultX" "hasDefaultX" "default-x" "TenthsValue";
     mkReading "defaultY" "hasDefaultY" "default-y" "TenthsValue";
     mkReading "relativeX" "hasRelativeX" "relative-x" "TenthsValue";
     mkReading "relativeY" "hasRelativeY" "relative-y" "TenthsValue";
     mkReading "fontFamily" "hasFontFamily" "font-family" "CommaSeparatedText";
     mkReading "fontStyle" "hasFontStyle" "font-style" "FontStyle";
     mkReading "fontSize" "hasFontSize" "font-size" "FontSize";
     mkReading "fontWeight" "hasFontWeight" "font-weight" "FontWeight";
     mkReading "color" "hasColor" "color" "Color";
     mkReading "halign" "hasHalign" "halign" "LeftCenterRight";
     mkReading "valign" "hasValign" "valign" "Valign";
     mkReading "placement" "hasPlacement" "placement" "AboveBelow";
     mkReading "underline" "hasUnderline" "underline" "NumberOfLines";
     mkReading "overline" "hasOverline" "overline" "NumberOfLines";
     mkReading "lineThrough" "hasLineThrough" "line-through" "NumberOfLines";
     mkReading "enclosure" "hasEnclosure" "enclosure" "EnclosureShape"]
    [].

(* core/elements/ElisionAttributes.cpp:13-95 *)
Definition elisionAttributes : attributeClass :=
  mkAttributeClass "ElisionAttributes"
    []
    ["hasFontFamily"; "hasFontStyle"; "hasFontSize"; "hasFontWeight"; "hasUnderline"; "hasOverline"; "hasLineThrough"; "hasRotation"; "hasLetterSpacing"; "hasLang"]
    [mkWriting "fontFamily" "font-family" "hasFontFamily";
     mkWriting "fontStyle" "font-style" "hasFontStyle";
     mkWriting "fontSize" "font-size" "hasFontSize";
     mkWriting "fontWeight" "font-weight" "hasFontWeight";
     mkWriting "underline" "underline" "hasUnderline";
     mkWriting "overline" "overline" "hasOverline";
     mkWriting "lineThrough" "line-through" "hasLineThrough";
     mkWriting "rotation" "rotation" "hasRotation";
     mkWriting "letterSpacing" "letter-spacing" "hasLetterSpacing";
     mkWriting "lang" "xml:lang" "hasLang"]
    [mkReading "fontFamily" "hasFontFamily" "font-family" "CommaSeparatedText";
     mkReading "fontStyle" "hasFontStyle" "font-style" "FontStyle";
     mkReading "fontSize" "hasFontSize" "font-size" "FontSize";
     mkReading "fontWeight" "hasFontWeight" "font-weight" "FontWeight";
     mkReading "underline" "hasUnderline" "underline" "NumberOfLines";
     mkReading "overline" "hasOverline" "overline" "NumberOfLines";
     mkReading "lineThrough" "hasLineThrough" "line-through" "NumberOfLines";
     mkReading "rotation" "hasRotation" "rotation" "RotationDegrees";
     mkReading "letterSpacing" "hasLetterSpacing" "letter-spacing" "NumberOrNormal";
     mkReading "lang" "hasLang" "lang" "XmlLang";
     mkReading "lang" "hasLang" "xml:lang" "XmlLang"]
    [].

(* core/elements/EmptyFontAttributes.cpp:13-64 *)
Definition emptyFontAttributes : attributeClass :=
  mkAttributeClass "EmptyFontAttributes"
    []
    ["hasFontFamily"; "hasFontStyle"; "hasFontSize"; "hasFontWeight"]
    [mkWriting "fontFamily" "font-family" "hasFontFamily";
     mkWriting "fontStyle" "font-style" "hasFontStyle";
     mkWriting "fontSize" "font-size" "hasFontSize";
     mkWriting "fontWeight" "font-weight" "hasFontWeight"]
    [mkReading "fontFamily" "hasFontFamily" "font-family" "CommaSeparatedText";
     mkReading "fontStyle" "hasFontStyle" "font-style" "FontStyle";
     mkReading "fontSize" "hasFontSize" "font-size" "FontSize";
     mkReading "fontWeight" "hasFontWeight" "font-weight" "FontWeight"]
    [].

(* core/elements/EmptyLineAttributes.cpp:13-112 *)
Definition emptyLineAttributes : attributeClass :=
  mkAttributeClass "EmptyLineAttributes"
    []
    ["hasLineShape"; "hasLineType"; "hasDashLength"; "hasSpaceLength"; "hasDefaultX"; "hasDefaultY"; "hasRelativeX"; "hasRelativeY"; "hasFontFamily"; "hasFontStyle"; "hasFontSize"; "hasFontWeight"; "hasPlacement"]
    [mkWriting "dashLength" "dash-length" "hasDashLength";
     mkWriting "lineShape" "line-shape" "hasLineShape";
     mkWriting "lineType" "line-type" "hasLineType";
     mkWriting "dashLength" "dash-length" "hasDashLength";
     mkWriting "spaceLength" "space-length" "hasSpaceLength";
     mkWriting "defaultX" "default-x" "hasDefaultX";
     mkWriting "defaultY" "default-y" "hasDefaultY";
     mkWriting "relativeX" "relative-x" "hasRelativeX";
     mkWriting "relativeY" "relative-y" "hasRelativeY";
     mkWriting "fontFamily" "font-family" "hasFontFamily";
     mkWriting "fontStyle" "font-style" "hasFontStyle";
     mkWriting "fontSize" "font-size" "hasFontSize";
     mkWriting "fontWeight" "font-weight" "hasFontWeight";
     mkWriting "placement" "placement" "hasPlacement"]
    [mkReading "lineShape" "hasLineShape" "line-shape" "LineShape";
     mkReading "lineType" "hasLineType" "line-type" "LineType";
     mkReading "dashLength" "hasDashLength" "dash-length" "TenthsValue";
     mkReading "spaceLength" "hasSpaceLength" "space-length" "TenthsValue";
     mkReading "defaultX" "hasDefaultX" "default-x" "TenthsValue";
     mkReading "defaultY" "hasDefaultY" "default-y" "TenthsValue";
     mkReading "relativeX" "hasRelativeX" "relative-x" "TenthsValue";
     mkReading "relativeY" "hasRelativeY" "relative-y" "TenthsValue";
     mkReading "fontFamily" "hasFontFamily" "font-family" "CommaSeparatedText";
     mkReading "fontStyle" "hasFontStyle" "font-style" "FontStyle";
     mkReading "fontSize" "hasFontSize" "font-size" "FontSize";
     mkReading "fontWeight" "hasFontWeight" "font-weight" "FontWeight";
     mkReading "placement" "hasPlacement" "placement" "AboveBelow"]
    [].

(* core/elements/EmptyPlacementAttributes.cpp:13-89 *)
Definition emptyPlacementAttributes : attributeClass :=
  mkAttributeClass "EmptyPlacementAttributes"
    []
    ["hasDefaultX"; "hasDefaultY"; "hasRelativeX"; "hasRelativeY"; "hasFontFamily"; "hasFontStyle"; "hasFontSize"; "hasFontWeight"; "hasPlacement"]
    [mkWriting "defaultX" "default-x" "hasDefaultX";
     mkWriting "defaultY" "default-y" "hasDefaultY";
     mkWriting "relativeX" "relative-x" "hasRelativeX";
     mkWriting "relativeY" "relative-y" "hasRelativeY";
     mkWriting "fontFamily" "font-family" "hasFontFamily";
     mkWriting "fontStyle" "font-style" "hasFontStyle";
     mkWriting "fontSize" "font-size" "hasFontSize";
     mkWriting "fontWeight" "font-weight" "hasFontWeight";
     mkWriting "placement" "placement" "hasPlacement"]
    [mkReading "defaultX" "hasDefaultX" "default-x" "TenthsValue";
     mkReading "defaultY" "hasDefaultY" "default-y" "TenthsValue";
     mkReading "relativeX" "hasRelativeX" "relative-x" "TenthsValue";
     mkReading "relativeY" "hasRelativeY" "relative-y" "TenthsValue";
     mkReading "fontFamily" "hasFontFamily" "font-family" "CommaSeparatedText";
     mkReading "fontStyle" "hasFontStyle" "font-style" "FontStyle";
     mkReading "fontSize" "hasFontSize" "font-size" "FontSize";
     mkReading "fontWeight" "hasFontWeight" "font-weight" "FontWeight";
     mkReading "placement" "hasPlacement" "placement" "AboveBelow"]
    [].

(* core/EmptyPrintObjectStyleAlignAttributes.cpp:12-104 *)
Definition emptyPrintObjectStyleAlignAttributes : attributeClass :=
  mkAttributeClass "EmptyPrintObjectStyleAlignAttributes"
    []
    ["hasPrintObject"; "hasDefaultX"; "hasDefaultY"; "hasRelativeX"; "hasRelativeY"; "hasFontFamily"; "hasFontStyle"; "hasFontSize"; "hasFontWeight"; "hasColor"; "hasHalign"; "hasValign"]
    [mkWriting "printObject" "print-object" "hasPrintObject";
     mkWriting "defaultX" "default-x" "hasDefaultX";
     mkWriting "defaultY" "default-y" "hasDefaultY";
     mkWriting "relativeX" "relative-x" "hasRelativeX";
     mkWriting "relativeY" "relative-y" "hasRelativeY";
     mkWriting "fontFamily" "font-family" "hasFontFamily";
     mkWriting "fontStyle" "font-style" "hasFontStyle";
     mkWriting "fontSize" "font-size" "hasFontSize";
     mkWriting "fontWeight" "font-weight" "hasFontWeight";
     mkWriting "color" "color" "hasColor";
     mkWriting "halign" "halign" "hasHalign";
     mkWriting "valign" "valign" "hasValign"]
    [mkReading "printObject" "hasPrintObject" "print-object" "YesNo";
     mkReading "defaultX" "hasDefaultX" "default-x" "TenthsValue";
     mkReading "defaultY" "hasDefaultY" "default-y" "TenthsValue";
     mkReading "relativeX" "hasRelativeX" "relative-x" "TenthsValue";
     mkReading "relativeY" "hasRelativeY" "relative-y" "TenthsValue";
     mkReading "fontFamily" "hasFontFamily" "font-family" "CommaSeparatedText";
     mkReading "fontStyle" "hasFontStyle" "font-style" "FontStyle";
     mkReading "fontSize" "hasFontSize" "font-size" "FontSize";
     mkReading "fontWeight" "hasFontWeight" "font-weight" "FontWeight";
     mkReading "color" "hasColor" "color" "Color";
     mkReading "halign" "hasHalign" "halign" "LeftCenterRight";
     mkReading "valign" "hasValign" "valign" "Valign"]
    [].

(* core/elements/EmptyTrillSoundAttributes.cpp:13-124 *)
Definition emptyTrillSoundAttributes : attributeClass :=
  mkAttributeClass "EmptyTrillSoundAttributes"
    []
    ["hasDefaultX"; "hasDefaultY"; "hasRelativeX"; "hasRelativeY"; "hasFontFamily"; "hasFontStyle"; "hasFontSize"; "hasFontWeight"; "hasPlacement"; "hasStartNote"; "hasTrillStep"; "hasTwoNoteTurn"; "hasAccelerate"; "hasBeats"; "hasSecondBeat"; "hasLastBeat"]
    [mkWriting "defaultX" "default-x" "hasDefaultX";
     mkWriting "defaultY" "default-y" "hasDefaultY";
     mkWriting "relativeX" "relative-x" "hasRelativeX";
     mkWriting "relativeY" "relative-y" "hasRelativeY";
     mkWriting "fontFamily" "font-family" "hasFontFamily";
     mkWriting "fontStyle" "font-style" "hasFontStyle";
     mkWriting "fontSize" "font-size" "hasFontSize";
     mkWriting "fontWeight" "font-weight" "hasFontWeight";
     mkWriting "placement" "placement" "hasPlacement";
     mkWriting "startNote" "start-note" "hasStartNote";
     mkWriting "trillStep" "trill-step" "hasTrillStep";
     mkWriting "twoNoteTurn" "two-note-turn" "hasTwoNoteTurn";
     mkWriting "accelerate" "accelerate" "hasAccelerate";
     mkWriting "beats" "beats" "hasBeats";
     mkWriting "secondBeat" "second-beat" "hasSecondBeat";
     mkWriting "lastBeat" "last-beat" "hasLastBeat"]
    [mkReading "defaultX" "hasDefaultX" "default-x" "TenthsValue";
     mkReading "defaultY" "hasDefaultY" "default-y" "TenthsValue";
     mkReading "relativeX" "hasRelativeX" "relative-x" "TenthsValue";
     mkReading "relativeY" "hasRelativeY" "relative-y" "TenthsValue";
     mkReading "fontFamily" "hasFontFamily" "font-family" "CommaSeparatedText";
     mkReading "fontStyle" "hasFontStyle" "font-style" "FontStyle";
     mkReading "fontSize" "hasFontSize" "font-size" "FontSize";
     mkReading "fontWeight" "hasFontWeight" "font-weight" "FontWeight";
     mkReading "placement" "hasPlacement" "placement" "AboveBelow";
     mkReading "startNote" "hasStartNote" "start-note" "StartNote";
     mkReading "trillStep" "hasTrillStep" "trill-step" "TrillStep";
     mkReading "twoNoteTurn" "hasTwoNoteTurn" "two-note-turn" "TwoNoteTurn";
     mkReading "accelerate" "hasAccelerate" "accelerate" "YesNo";
     mkReading "beats" "hasBeats" "beats" "TrillBeats";
     mkReading "secondBeat" "hasSecondBeat" "second-beat" "Percent";
     mkReading "lastBeat" "hasLastBeat" "last-beat" "Percent"]
    [].

(* core/elements/EncoderAttributes.cpp:13-49 *)
Definition encoderAttributes : attributeClass :=
  mkAttributeClass "EncoderAttributes"
    []
    ["hasType"]
    [mkWriting "type" "type" "hasType"]
    [mkReading "type" "hasType" "type" "XsToken"]
    [].

(* core/elements/EndingAttributes.cpp:13-130 *)
Definition endingAttributes : attributeClass :=
  mkAttributeClass "EndingAttributes"
    ["hasNumber"; "hasType"]
    ["hasNumber"; "hasType"; "hasPrintObject"; "hasDefaultX"; "hasDefaultY"; "hasRelativeX"; "hasRelativeY"; "hasFontFamily"; "hasFontStyle"; "hasFontSize"; "hasFontWeight"; "hasEndLength"; "hasTextX"; "hasTextY"]
    [mkWriting "number" "number" "hasNumber";
     mkWriting "type" "type" "hasType";
     mkWriting "printObject" "print-object" "hasPrintObject";
     mkWriting "defaultX" "default-x" "hasDefaultX";
     mkWriting "defaultY" "default-y" "hasDefaultY";
     mkWriting "relativeX" "relative-x" "hasRelativeX";
     mkWriting "relativeY" "relative-y" "hasRelativeY";
     mkWriting "fontFamily" "font-family" "hasFontFamily";
     mkWriting "fontStyle" "font-style" "hasFontStyle";
     mkWriting "fontSize" "font-size" "hasFontSize";
     mkWriting "fontWeight" "font-weight" "hasFontWeight";
     mkWriting "endLength" "end-length" "hasEndLength";
     mkWriting "textX" "text-x" "hasTextX";
     mkWriting "textY" "text-y" "hasTextY"]
    [mkReading "number" "isNumberFound" "number" "EndingNumber";
     mkReading "type" "isTypeFound" "type" "StartStopDiscontinue";
     mkReading "printObject" "hasPrintObject" "print-object" "YesNo";
     mkReading "defaultX" "hasDefaultX" "default-x" "TenthsValue";
     mkReading "defaultY" "hasDefaultY" "default-y" "TenthsValue";
     mkReading "relativeX" "hasRelativeX" "relative-x" "TenthsValue";
     mkReading "relativeY" "hasRelativeY" "relative-y" "TenthsValue";
     mkReading "fontFamily" "hasFontFamily" "font-family" "CommaSeparatedText";
     mkReading "fontStyle" "hasFontStyle" "font-style" "FontStyle";
     mkReading "fontSize" "hasFontSize" "font-size" "FontSize";
     mkReading "fontWeight" "hasFontWeight" "font-weight" "FontWeight";
     mkReading "endLength" "hasEndLength" "end-length" "TenthsValue";
     mkReading "textX" "hasTextX" "text-x" "TenthsValue";
     mkReading "textY" "hasTextY" "text-y" "TenthsValue"]
    ["isNumberFound"; "isTypeFound"].

(* core/elements/ExtendAttributes.cpp:13-89 *)
Definition extendAttributes : attributeClass :=
  mkAttributeClass "ExtendAttributes"
    []
    ["hasType"; "hasDefaultX"; "hasDefaultY"; "hasRelativeX"; "hasRelativeY"; "hasFontFamily"; "hasFontStyle"; "hasFontSize"; "hasFontWeight"]
    [mkWriting "type" "type" "hasType";
     mkWriting "defaultX" "default-x" "hasDefaultX";
     mkWriting "defaultY" "default-y" "hasDefaultY";
     mkWriting "relativeX" "relative-x" "hasRelativeX";
     mkWriting "relativeY" "relative-y" "hasRelativeY";
     mkWriting "fontFamily" "font-family" "hasFontFamily";
     mkWriting "fontStyle" "font-style" "hasFontStyle";
     mkWriting "fontSize" "font-size" "hasFontSize";
     mkWriting "fontWeight" "font-weight" "hasFontWeight"]
    [mkReading "type" "hasType" "type" "StartStopContinue";
     mkReading "defaultX" "hasDefaultX" "default-x" "TenthsValue";
     mkReading "defaultY" "hasDefaultY" "default-y" "TenthsValue";
     mkReading "relativeX" "hasRelativeX" "relative-x" "TenthsValue";
     mkReading "relativeY" "hasRelativeY" "relative-y" "TenthsValue";
     mkReading "fontFamily" "hasFontFamily" "font-family" "CommaSeparatedText";
     mkReading "fontStyle" "hasFontStyle" "font-style" "FontStyle";
     mkReading "fontSize" "hasFontSize" "font-size" "FontSize";
     mkReading "fontWeight" "hasFontWeight" "font-weight" "FontWeight"]
    [].

(* core/elements/FeatureAttributes.cpp:13-49 *)
Definition featureAttributes : attributeClass :=
  mkAttributeClass "FeatureAttributes"
    []
    ["hasType"]
    [mkWriting "type" "type" "hasType"]
    [mkReading "type" "hasType" "type" "XsToken"]
    [].

(* core/elements/FermataAttributes.cpp:13-94 *)
Definition fermataAttributes : attributeClass :=
  mkAttributeClass "FermataAttributes"
    []
    ["hasType"; "hasDefaultX"; "hasDefaultY"; "hasRelativeX"; "hasRelativeY"; "hasFontFamily"; "hasFontStyle"; "hasFontSize"; "hasFontWeight"; "hasColor"]
    [mkWriting "type" "type" "hasType";
     mkWriting "defaultX" "default-x" "hasDefaultX";
     mkWriting "defaultY" "default-y" "hasDefaultY";
     mkWriting "relativeX" "relative-x" "hasRelativeX";
     mkWriting "relativeY" "relative-y" "hasRelativeY";
     mkWriting "fontFamily" "font-family" "hasFontFamily";
     mkWriting "fontStyle" "font-style" "hasFontStyle";
     mkWriting "fontSize" "font-size" "hasFontSize";
     mkWriting "fontWeight" "font-weight" "hasFontWeight";
     mkWriting "color" "color" "hasColor"]
    [mkReading "type" "hasType" "type" "UprightInverted";
     mkReading "defaultX" "hasDefaultX" "default-x" "TenthsValue";
     mkReading "defaultY" "hasDefaultY" "default-y" "TenthsValue";
     mkReading "relativeX" "hasRelativeX" "relative-x" "TenthsValue";
     mkReading "relativeY" "hasRelativeY" "relative-y" "TenthsValue";
     mkReading "fontFamily" "hasFontFamily" "font-family" "CommaSeparatedText";
     mkReading "fontStyle" "hasFontStyle" "font-style" "FontStyle";
     mkReading "fontSize" "hasFontSize" "font-size" "FontSize";
     mkReading "fontWeight" "hasFontWeight" "font-weight" "FontWeight";
     mkReading "color" "hasColor" "color" "Color"]
    [].

(* core/elements/FigureNumberAttributes.cpp:13-84 *)
Definition figureNumberAttributes : attributeClass :=
  mkAttributeClass "FigureNumberAttributes"
    []
    ["hasDefaultX"; "hasDefaultY"; "hasRelativeX"; "hasRelativeY"; "hasFontFamily"; "hasFontStyle"; "hasFontSize"; "hasFontWeight"]
    [mkWriting "defaultX" "default-x" "hasDefaultX";
     mkWriting "defaultY" "default-y" "hasDefaultY";
     mkWriting "relativeX" "relative-x" "hasRelativeX";
     mkWriting "relativeY" "relative-y" "hasRelativeY";
     mkWriting "fontFamily" "font-family" "hasFontFamily";
     mkWriting "fontStyle" "font-style" "hasFontStyle";
     mkWriting "fontSize" "font-size" "hasFontSize";
     mkWriting "fontWeight" "font-weight" "hasFontWeight"]
    [mkReading "defaultX" "hasDefaultX" "default-x" "TenthsValue";
     mkReading "defaultY" "hasDefaultY" "default-y" "TenthsValue";
     mkReading "relativeX" "hasRelativeX" "relative-x" "TenthsValue";
     mkReading "relativeY" "hasRelativeY" "relative-y" "TenthsValue";
     mkReading "fontFamily" "hasFontFamily" "font-family" "CommaSeparatedText";
     mkReading "fontStyle" "hasFontStyle" "font-style" "FontStyle";
     mkReading "fontSize" "hasFontSize" "font-size" "FontSize";
     mkReading "fontWeight" "hasFontWeight" "font-weight" "FontWeight"]
    [].

(* core/elements/FiguredBassAttributes.cpp:13-114 *)
Definition figuredBassAttributes : attributeClass :=
  mkAttributeClass "FiguredBassAttributes"
    []
    ["hasDefaultX"; "hasDefaultY"; "hasRelativeX"; "hasRelativeY"; "hasFontFamily"; "hasFontStyle"; "hasFontSize"; "hasFontWeight"; "hasColor"; "hasPrintObject"; "hasPrintDot"; "hasPrintSpacing"; "hasPrintLyric"; "hasParentheses"]
    [mkWriting "defaultX" "default-x" "hasDefaultX";
     mkWriting "defaultY" "default-y" "hasDefaultY";
     mkWriting "relativeX" "relative-x" "hasRelativeX";
     mkWriting "relativeY" "relative-y" "hasRelativeY";
     mkWriting "fontFamily" "font-family" "hasFontFamily";
     mkWriting "fontStyle" "font-style" "hasFontStyle";
     mkWriting "fontSize" "font-size" "hasFontSize";
     mkWriting "fontWeight" "font-weight" "hasFontWeight";
     mkWriting "color" "color" "hasColor";
     mkWriting "printObject" "print-object" "hasPrintObject";
     mkWriting "printDot" "print-dot" "hasPrintDot";
     mkWriting "printSpacing" "print-spacing" "hasPrintSpacing";
     mkWriting "printLyric" "print-lyric" "hasPrintLyric";
     mkWriting "parentheses" "parentheses" "hasParentheses"]
    [mkReading "defaultX" "hasDefaultX" "default-x" "TenthsValue";
     mkReading "defaultY" "hasDefaultY" "default-y" "TenthsValue";
     mkReading "relativeX" "hasRelativeX" "relative-x" "TenthsValue";
     mkReading "relativeY" "hasRelativeY" "relative-y" "TenthsValue";
     mkReading "fontFamily" "hasFontFamily" "font-family" "CommaSeparatedText";
     mkReading "fontStyle" "hasFontStyle" "font-style" "FontStyle";
     mkReading "fontSize" "hasFontSize" "font-size" "FontSize";
     mkReading "fontWeight" "hasFontWeight" "font-weight" "FontWeight";
     mkReading "color" "hasColor" "color" "Color";
     mkReading "printObject" "hasPrintObject" "print-object" "YesNo";
     mkReading "printDot" "hasPrintDot" "print-dot" "YesNo";
     mkReading "printSpacing" "hasPrintSpacing" "print-spacing" "YesNo";
     mkReading "printLyric" "hasPrintLyric" "print-lyric" "YesNo";
     mkReading "parentheses" "hasParentheses" "parentheses" "YesNo"]
    [].

(* core/elements/FingeringAttributes.cpp:13-99 *)
Definition fingeringAttributes : attributeClass :=
  mkAttributeClass "FingeringAttributes"
    []
    ["hasSubstitution"; "hasAlternate"; "hasDefaultX"; "hasDefaultY"; "hasRelativeX"; "hasRelativeY"; "hasFontFamily"; "hasFontStyle"; "hasFontSize"; "hasFontWeight"; "hasPlacement"]
    [mkWriting "substitution" "substitution" "hasSubstitution";
     mkWriting "alternate" "alternate" "hasAlternate";
     mkWriting "defaultX" "default-x" "hasDefaultX";
     mkWriting "defaultY" "default-y" "hasDefaultY";
     mkWriting "relativeX" "relative-x" "hasRelativeX";
     mkWriting "relativeY" "relative-y" "hasRelativeY";
     mkWriting "fontFamily" "font-family" "hasFontFamily";
     mkWriting "fontStyle" "font-style" "hasFontStyle";
     mkWriting "fontSize" "font-size" "hasFontSize";
     mkWriting "fontWeight" "font-weight" "hasFontWeight";
     mkWriting "placement" "placement" "hasPlacement"]
    [mkReading "substitution" "hasSubstitution" "substitution" "YesNo";
     mkReading "alternate" "hasAlternate" "alternate" "YesNo";
     mkReading "defaultX" "hasDefaultX" "default-x" "TenthsValue";
     mkReading "defaultY" "hasDefaultY" "default-y" "TenthsValue";
     mkReading "relativeX" "hasRelativeX" "relative-x" "TenthsValue";
     mkReading "relativeY" "hasRelativeY" "relative-y" "TenthsValue";
     mkReading "fontFamily" "hasFontFamily" "font-family" "CommaSeparatedText";
     mkReading "fontStyle" "hasFontStyle" "font-style" "FontStyle";
     mkReading "fontSize" "hasFontSize" "font-size" "FontSize";
     mkReading "fontWeight" "hasFontWeight" "font-weight" "FontWeight";
     mkReading "placement" "hasPlacement" "placement" "AboveBelow"]
    [].

(* core/elements/FirstFretAttributes.cpp:13-54 *)
Definition firstFretAttributes : attributeClass :=
  mkAttributeClass "FirstFretAttributes"
    []
    ["hasText"; "hasLocation"]
    [mkWriting "text" "text" "hasText";
     mkWriting "location" "location" "hasLocation"]
    [mkReading "text" "hasText" "text" "XsToken";
     mkReading "location" "hasLocation" "location" "LeftRight"]
    [].

(* core/elements/FootnoteAttributes.cpp:13-141 *)
Definition footnoteAttributes : attributeClass :=
  mkAttributeClass "FootnoteAttributes"
    []
    ["hasJustify"; "hasDefaultX"; "hasDefaultY"; "hasRelativeX"; "hasRelativeY"; "hasFontFamily"; "hasFontStyle"; "hasFontSize"; "hasFontWeight"; "hasHalign"; "hasUnderline"; "hasOverline"; "hasLineThrough"; "hasRotation"; "hasLetterSpacing"; "hasLineHeight"; "hasLang"; "hasSpace"; "hasEnclosure"]
    [mkWriting "justify" "justify" "hasJustify";
     mkWriting "defaultX" "default-x" "hasDefaultX";
     mkWriting "defaultY" "default-y" "hasDefaultY";
     mkWriting "relativeX" "relative-x" "hasRelativeX";
     mkWriting "relativeY" "relative-y" "hasRelativeY";
     mkWriting "fontFamily" "font-family" "hasFontFamily";
     mkWriting "fontStyle" "font-style" "hasFontStyle";
     mkWriting "fontSize" "font-size" "hasFontSize";
     mkWriting "fontWeight" "font-weight" "hasFontWeight";
     mkWriting "halign" "halign" "hasHalign";
     mkWriting "underline" "underline" "hasUnderline";
     mkWriting "overline" "overline" "hasOverline";
     mkWriting "lineThrough" "line-through" "hasLineThrough";
     mkWriting "rotation" "rotation" "hasRotation";
     mkWriting "letterSpacing" "letter-spacing" "hasLetterSpacing";
     mkWriting "lineHeight" "line-height" "hasLineHeight";
     mkWriting "lang" "xml:lang" "hasLang";
     mkWriting "space" "xml:space" "hasSpace";
     mkWriting "enclosure" "enclosure" "hasEnclosure"]
    [mkReading "justify" "hasJustify" "justify" "LeftCenterRight";
     mkReading "defaultX" "hasDefaultX" "default-x" "TenthsValue";
     mkReading "defaultY" "hasDefaultY" "default-y" "TenthsValue";
     mkReading "relativeX" "hasRelativeX" "relative-x" "TenthsValue";
     mkReading "relativeY" "hasRelativeY" "relative-y" "TenthsValue";
     mkReading "fontFamily" "hasFontFamily" "font-family" "CommaSeparatedText";
     mkReading "fontStyle" "hasFontStyle" "font-style" "FontStyle";
     mkReading "fontSize" "hasFontSize" "font-size" "FontSize";
     mkReading "fontWeight" "hasFontWeight" "font-weight" "FontWeight";
     mkReading "halign" "hasHalign" "halign" "LeftCenterRight";
     mkReading "underline" "hasUnderline" "underline" "NumberOfLines";
     mkReading "overline" "hasOverline" "overline" "NumberOfLines";
     mkReading "lineThrough" "hasLineThrough" "line-through" "NumberOfLines";
     mkReading "rotation" "hasRotation" "rotation" "RotationDegrees";
     mkReading "letterSpacing" "hasLetterSpacing" "letter-spacing" "NumberOrNormal";
     mkReading "lineHeight" "hasLineHeight" "line-height" "NumberOrNormal";
     mkReading "lang" "hasLang" "lang" "XmlLang";
     mkReading "lang" "hasLang" "xml:lang" "XmlLang";
     mkReading "space" "hasSpace" "space" "XmlSpace";
     mkReading "space" "hasSpace" "xml:space" "XmlSpace";
     mkReading "enclosure" "hasEnclosure" "enclosure" "EnclosureShape"]
    [].

(* core/elements/FrameAttributes.cpp:13-94 *)
Definition frameAttributes : attributeClass :=
  mkAttributeClass "FrameAttributes"
    []
    ["hasDefaultX"; "hasDefaultY"; "hasRelativeX"; "hasRelativeY"; "hasColor"; "hasHalign"; "hasValign"; "hasHeight"; "hasWidth"; "hasUnplayed"]
    [mkWriting "defaultX" "default-x" "hasDefaultX";
     mkWriting "defaultY" "default-y" "hasDefaultY";
     mkWriting "relativeX" "relative-x" "hasRelativeX";
     mkWriting "relativeY" "relative-y" "hasRelativeY";
     mkWriting "color" "color" "hasColor";
     mkWriting "halign" "halign" "hasHalign";
     mkWriting "valign" "valign" "hasValign";
     mkWriting "height" "height" "hasHeight";
     mkWriting "width" "width" "hasWidth";
     mkWriting "unplayed" "unplayed" "hasUnplayed"]
    [mkReading "defaultX" "hasDefaultX" "default-x" "TenthsValue";
     mkReading "defaultY" "hasDefaultY" "default-y" "TenthsValue";
     mkReading "relativeX" "hasRelativeX" "relative-x" "TenthsValue";
     mkReading "relativeY" "hasRelativeY" "relative-y" "TenthsValue";
     mkReading "color" "hasColor" "color" "Color";
     mkReading "halign" "hasHalign" "halign" "LeftCenterRight";
     mkReading "valign" "hasValign" "valign" "ValignImage";
     mkReading "height" "hasHeight" "height" "TenthsValue";
     mkReading "width" "hasWidth" "width" "TenthsValue";
     mkReading "unplayed" "hasUnplayed" "unplayed" "XsToken"]
    [].

(* core/elements/FretAttributes.cpp:13-64 *)
Definition fretAttributes : attributeClass :=
  mkAttributeClass "FretAttributes"
    []
    ["hasFontFamily"; "hasFontStyle"; "hasFontSize"; "hasFontWeight"]
    [mkWriting "fontFamily" "font-family" "hasFontFamily";
     mkWriting "fontStyle" "font-style" "hasFontStyle";
     mkWriting "fontSize" "font-size" "hasFontSize";
     mkWriting "fontWeight" "font-weight" "hasFontWeight"]
    [mkReading "fontFamily" "hasFontFamily" "font-family" "CommaSeparatedText";
     mkReading "fontStyle" "hasFontStyle" "font-style" "FontStyle";
     mkReading "fontSize" "hasFontSize" "font-size" "FontSize";
     mkReading "fontWeight" "hasFontWeight" "font-weight" "FontWeight"]
    [].

(* core/elements/FunctionAttributes.cpp:13-84 *)
Definition functionAttributes : attributeClass :=
  mkAttributeClass "FunctionAttributes"
    []
    ["hasDefaultX"; "hasDefaultY"; "hasRelativeX"; "hasRelativeY"; "hasFontFamily"; "hasFontStyle"; "hasFontSize"; "hasFontWeight"]
    [mkWriting "defaultX" "default-x" "hasDefaultX";
     mkWriting "defaultY" "default-y" "hasDefaultY";
     mkWriting "relativeX" "relative-x" "hasRelativeX";
     mkWriting "relativeY" "relative-y" "hasRelativeY";
     mkWriting "fontFamily" "font-family" "hasFontFamily";
     mkWriting "fontStyle" "font-style" "hasFontStyle";
     mkWriting "fontSize" "font-size" "hasFontSize";
     mkWriting "fontWeight" "font-weight" "hasFontWeight"]
    [mkReading "defaultX" "hasDefaultX" "default-x" "TenthsValue";
     mkReading "defaultY" "hasDefaultY" "default-y" "TenthsValue";
     mkReading "relativeX" "hasRelativeX" "relative-x" "TenthsValue";
     mkReading "relativeY" "hasRelativeY" "relative-y" "TenthsValue";
     mkReading "fontFamily" "hasFontFamily" "font-family" "CommaSeparatedText";
     mkReading "fontStyle" "hasFontStyle" "font-style" "FontStyle";
     mkReading "fontSize" "hasFontSize" "font-size" "FontSize";
     mkReading "fontWeight" "hasFontWeight" "font-weight" "FontWeight"]
    [].

(* core/elements/GlissandoAttributes.cpp:13-115 *)
Definition glissandoAttributes : attributeClass :=
  mkAttributeClass "GlissandoAttributes"
    ["hasType"]
    ["hasType"; "hasNumber"; "hasLineType"; "hasDashLength"; "hasSpaceLength"; "hasDefaultX"; "hasDefaultY"; "hasRelativeX"; "hasRelativeY"; "hasFontFamily"; "hasFontStyle"; "hasFontSize"; "hasFontWeight"]
    [mkWriting "type" "type" "hasType";
     mkWriting "number" "number" "hasNumber";
     mkWriting "lineType" "line-type" "hasLineType";
     mkWriting "dashLength" "dash-length" "hasDashLength";
     mkWriting "spaceLength" "space-length" "hasSpaceLength";
     mkWriting "defaultX" "default-x" "hasDefaultX";
     mkWriting "defaultY" "default-y" "hasDefaultY";
     mkWriting "relativeX" "relative-x" "hasRelativeX";
     mkWriting "relativeY" "relative-y" "hasRelativeY";
     mkWriting "fontFamily" "font-family" "hasFontFamily";
     mkWriting "fontStyle" "font-style" "hasFontStyle";
     mkWriting "fontSize" "font-size" "hasFontSize";
     mkWriting "fontWeight" "font-weight" "hasFontWeight"]
    [mkReading "type" "isTypeFound" "type" "StartStop";
     mkReading "number" "hasNumber" "number" "NumberLevel";
     mkReading "lineType" "hasLineType" "line-type" "LineType";
     mkReading "dashLength" "hasDashLength" "dash-length" "TenthsValue";
     mkReading "spaceLength" "hasSpaceLength" "space-length" "TenthsValue";
     mkReading "defaultX" "hasDefaultX" "default-x" "TenthsValue";
     mkReading "defaultY" "hasDefaultY" "default-y" "TenthsValue";
     mkReading "relativeX" "hasRelativeX" "relative-x" "TenthsValue";
     mkReading "relativeY" "hasRelativeY" "relative-y" "TenthsValue";
     mkReading "fontFamily" "hasFontFamily" "font-family" "CommaSeparatedText";
     mkReading "fontStyle" "hasFontStyle" "font-style" "FontStyle";
     mkReading "fontSize" "hasFontSize" "font-size" "FontSize";
     mkReading "fontWeight" "hasFontWeight" "font-weight" "FontWeight"]
    ["isTypeFound"].

(* core/elements/GraceAttributes.cpp:13-64 *)
Definition graceAttributes : attributeClass :=
  mkAttributeClass "GraceAttributes"
    []
    ["hasStealTimePrevious"; "hasStealTimeFollowing"; "hasMakeTime"; "hasSlash"]
    [mkWriting "stealTimePrevious" "steal-time-previous" "hasStealTimePrevious";
     mkWriting "stealTimeFollowing" "steal-time-following" "hasStealTimeFollowing";
     mkWriting "makeTime" "make-time" "hasMakeTime";
     mkWriting "slash" "slash" "hasSlash"]
    [mkReading "stealTimePrevious" "hasStealTimePrevious" "steal-time-previous" "Percent";
     mkReading "stealTimeFollowing" "hasStealTimeFollowing" "steal-time-following" "Percent";
     mkReading "makeTime" "hasMakeTime" "make-time" "DivisionsValue";
     mkReading "slash" "hasSlash" "slash" "YesNo"]
    [].

(* core/elements/GroupAbbreviationAttributes.cpp:13-89 *)
Definition groupAbbreviationAttributes : attributeClass :=
  mkAttributeClass "GroupAbbreviationAttributes"
    []
    ["hasDefaultX"; "hasDefaultY"; "hasRelativeX"; "hasRelativeY"; "hasFontFamily"; "hasFontStyle"; "hasFontSize"; "hasFontWeight"; "hasJustify"]
    [mkWriting "defaultX" "default-x" "hasDefaultX";
     mkWriting "defaultY" "default-y" "hasDefaultY";
     mkWriting "relativeX" "relative-x" "hasRelativeX";
     mkWriting "relativeY" "relative-y" "hasRelativeY";
     mkWriting "fontFamily" "font-family" "hasFontFamily";
     mkWriting "fontStyle" "font-style" "hasFontStyle";
     mkWriting "fontSize" "font-size" "hasFontSize";
     mkWriting "fontWeight" "font-weight" "hasFontWeight";
     mkWriting "justify" "justify" "hasJustify"]
    [mkReading "defaultX" "hasDefaultX" "default-x" "TenthsValue";
     mkReading "defaultY" "hasDefaultY" "default-y" "TenthsValue";
     mkReading "relativeX" "hasRelativeX" "relative-x" "TenthsValue";
     mkReading "relativeY" "hasRelativeY" "relative-y" "TenthsValue";
     mkReading "fontFamily" "hasFontFamily" "font-family" "CommaSeparatedText";
     mkReading "fontStyle" "hasFontStyle" "font-style" "FontStyle";
     mkReading "fontSize" "hasFontSize" "font-size" "FontSize";
     mkReading "fontWeight" "hasFontWeight" "font-weight" "FontWeight";
     mkReading "justify" "hasJustify" "justify" "LeftCenterRight"]
    [].

(* core/elements/GroupAbbreviationDisplayAttributes.cpp:13-49 *)
Definition groupAbbreviationDisplayAttributes : attributeClass :=
  mkAttributeClass "GroupAbbreviationDisplayAttributes"
    []
    ["hasPrintObject"]
    [mkWriting "printObject" "print-object" "hasPrintObject"]
    [mkReading "printObject" "hasPrintObject" "print-object" "YesNo"]
    [].

(* core/elements/GroupBarlineAttributes.cpp:13-49 *)
Definition groupBarlineAttributes : attributeClass :=
  mkAttributeClass "GroupBarlineAttributes"
    []
    ["hasColor"]
    [mkWriting "color" "color" "hasColor"]
    [mkReading "color" "hasColor" "color" "Color"]
    [].

(* core/elements/GroupNameAttributes.cpp:13-89 *)
Definition groupNameAttributes : attributeClass :=
  mkAttributeClass "GroupNameAttributes"
    []
    ["hasDefaultX"; "hasDefaultY"; "hasRelativeX"; "hasRelativeY"; "hasFontFamily"; "hasFontStyle"; "hasFontSize"; "hasFontWeight"; "hasJustify"]
    [mkWriting "defaultX" "default-x" "hasDefaultX";
     mkWriting "defaultY" "default-y" "hasDefaultY";
     mkWriting "relativeX" "relative-x" "hasRelativeX";
     mkWriting "relativeY" "relative-y" "hasRelativeY";
     mkWriting "fontFamily" "font-family" "hasFontFamily";
     mkWriting "fontStyle" "font-style" "hasFontStyle";
     mkWriting "fontSize" "font-size" "hasFontSize";
     mkWriting "fontWeight" "font-weight" "hasFontWeight";
     mkWriting "justify" "justify" "hasJustify"]
    [mkReading "defaultX" "hasDefaultX" "default-x" "TenthsValue";
     mkReading "defaultY" "hasDefaultY" "default-y" "TenthsValue";
     mkReading "relativeX" "hasRelativeX" "relative-x" "TenthsValue";
     mkReading "relativeY" "hasRelativeY" "relative-y" "TenthsValue";
     mkReading "fontFamily" "hasFontFamily" "font-family" "CommaSeparatedText";
     mkReading "fontStyle" "hasFontStyle" "font-style" "FontStyle";
     mkReading "fontSize" "hasFontSize" "font-size" "FontSize";
     mkReading "fontWeight" "hasFontWeight" "font-weight" "FontWeight";
     mkReading "justify" "hasJustify" "justify" "LeftCenterRight"]
    [].

(* core/elements/GroupNameDisplayAttributes.cpp:13-49 *)
Definition groupNameDisplayAttributes : attributeClass :=
  mkAttributeClass "GroupNameDisplayAttributes"
    []
    ["hasPrintObject"]
    [mkWriting "printObject" "print-object" "hasPrintObject"]
    [mkReading "printObject" "hasPrintObject" "print-object" "YesNo"]
    [].

(* core/elements/GroupSymbolAttributes.cpp:13-64 *)
Definition groupSymbolAttributes : attributeClass :=
  mkAttributeClass "GroupSymbolAttributes"
    []
    ["hasDefaultX"; "hasDefaultY"; "hasRelativeX"; "hasRelativeY"]
    [mkWriting "defaultX" "default-x" "hasDefaultX";
     mkWriting "defaultY" "default-y" "hasDefaultY";
     mkWriting "relativeX" "relative-x" "hasRelativeX";
     mkWriting "relativeY" "relative-y" "hasRelativeY"]
    [mkReading "defaultX" "hasDefaultX" "default-x" "TenthsValue";
     mkReading "defaultY" "hasDefaultY" "default-y" "TenthsValue";
     mkReading "relativeX" "hasRelativeX" "relative-x" "TenthsValue";
     mkReading "relativeY" "hasRelativeY" "relative-y" "TenthsValue"]
    [].

(* core/elements/GroupingAttributes.cpp:13-65 *)
Definition groupingAttributes : attributeClass :=
  mkAttributeClass "GroupingAttributes"
    ["hasType"]
    ["hasType"; "hasNumber"; "hasMemberOf"]
    [mkWriting "type" "type" "hasType";
     mkWriting "number" "number" "hasNumber";
     mkWriting "memberOf" "member-of" "hasMemberOf"]
    [mkReading "type" "isTypeFound" "type" "StartStopSingle";
     mkReading "number" "hasNumber" "number" "XsToken";
     mkReading "memberOf" "hasMemberOf" "member-of" "XsToken"]
    ["isTypeFound"].

(* core/elements/HammerOnAttributes.cpp:13-105 *)
Definition hammerOnAttributes : attributeClass :=
  mkAttributeClass "HammerOnAttributes"
    ["hasType"]
    ["hasType"; "hasNumber"; "hasDefaultX"; "hasDefaultY"; "hasRelativeX"; "hasRelativeY"; "hasFontFamily"; "hasFontStyle"; "hasFontSize"; "hasFontWeight"; "hasPlacement"]
    [mkWriting "type" "type" "hasType";
     mkWriting "number" "number" "hasNumber";
     mkWriting "defaultX" "default-x" "hasDefaultX";
     mkWriting "defaultY" "default-y" "hasDefaultY";
     mkWriting "relativeX" "relative-x" "hasRelativeX";
     mkWriting "relativeY" "relative-y" "hasRelativeY";
     mkWriting "fontFamily" "font-family" "hasFontFamily";
     mkWriting "fontStyle" "font-style" "hasFontStyle";
     mkWriting "fontSize" "font-size" "hasFontSize";
     mkWriting "fontWeight" "font-weight" "hasFontWeight";
     mkWriting "placement" "placement" "hasPlacement"]
    [mkReading "type" "isTypeFound" "type" "StartStop";
     mkReading "number" "hasNumber" "number" "NumberLevel";
     mkReading "defaultX" "hasDefaultX" "default-x" "TenthsValue";
     mkReading "defaultY" "hasDefaultY" "default-y" "TenthsValue";
     mkReading "relativeX" "hasRelativeX" "relative-x" "TenthsValue";
     mkReading "relativeY" "hasRelativeY" "relative-y" "TenthsValue";
     mkReading "fontFamily" "hasFontFamily" "font-family" "CommaSeparatedText";
     mkReading "fontStyle" "hasFontStyle" "font-style" "FontStyle";
     mkReading "fontSize" "hasFontSize" "font-size" "FontSize";
     mkReading "fontWeight" "hasFontWeight" "font-weight" "FontWeight";
     mkReading "placement" "hasPlacement" "placement" "AboveBelow"]
    ["isTypeFound"].

(* core/elements/HandbellAttributes.cpp:13-89 *)
Definition handbellAttributes : attributeClass :=
  mkAttributeClass "HandbellAttributes"
    []
    ["hasDefaultX"; "hasDefaultY"; "hasRelativeX"; "hasRelativeY"; "hasFontFamily"; "hasFontStyle"; "hasFontSize"; "hasFontWeight"; "hasPlacement"]
    [mkWriting "defaultX" "default-x" "hasDefaultX";
     mkWriting "defaultY" "default-y" "hasDefaultY";
     mkWriting "relativeX" "relative-x" "hasRelativeX";
     mkWriting "relativeY" "relative-y" "hasRelativeY";
     mkWriting "fontFamily" "font-family" "hasFontFamily";
     mkWriting "fontStyle" "font-style" "hasFontStyle";
     mkWriting "fontSize" "font-size" "hasFontSize";
     mkWriting "fontWeight" "font-weight" "hasFontWeight";
     mkWriting "placement" "placement" "hasPlacement"]
    [mkReading "defaultX" "hasDefaultX" "default-x" "TenthsValue";
     mkReading "defaultY" "hasDefaultY" "default-y" "TenthsValue";
     mkReading "relativeX" "hasRelativeX" "relative-x" "TenthsValue";
     mkReading "relativeY" "hasRelativeY" "relative-y" "TenthsValue";
     mkReading "fontFamily" "hasFontFamily" "font-family" "CommaSeparatedText";
     mkReading "fontStyle" "hasFontStyle" "font-style" "FontStyle";
     mkReading "fontSize" "hasFontSize" "font-size" "FontSize";
     mkReading "fontWeight" "hasFontWeight" "font-weight" "FontWeight";
     mkReading "placement" "hasPlacement" "placement" "AboveBelow"]
    [].

(* core/elements/HarmonicAttributes.cpp:13-99 *)
Definition harmonicAttributes : attributeClass :=
  mkAttributeClass "HarmonicAttributes"
    []
    ["hasPrintObject"; "hasDefaultX"; "hasDefaultY"; "hasRelativeX"; "hasRelativeY"; "hasFontFamily"; "hasFontStyle"; "hasFontSize"; "hasFontWeight"; "hasColor"; "hasPlacement"]
    [mkWriting "printObject" "print-object" "hasPrintObject";
     mkWriting "defaultX" "default-x" "hasDefaultX";
     mkWriting "defaultY" "default-y" "hasDefaultY";
     mkWriting "relativeX" "relative-x" "hasRelativeX";
     mkWriting "relativeY" "relative-y" "hasRelativeY";
     mkWriting "fontFamily" "font-family" "hasFontFamily";
     mkWriting "fontStyle" "font-style" "hasFontStyle";
     mkWriting "fontSize" "font-size" "hasFontSize";
     mkWriting "fontWeight" "font-weight" "hasFontWeight";
     mkWriting "color" "color" "hasColor";
     mkWriting "placement" "placement" "hasPlacement"]
    [mkReading "printObject" "hasPrintObject" "print-object" "YesNo";
     mkReading "defaultX" "hasDefaultX" "default-x" "TenthsValue";
     mkReading "defaultY" "hasDefaultY" "default-y" "TenthsValue";
     mkReading "relativeX" "hasRelativeX" "relative-x" "TenthsValue";
     mkReading "relativeY" "hasRelativeY" "relative-y" "TenthsValue";
     mkReading "fontFamily" "hasFontFamily" "font-family" "CommaSeparatedText";
     mkReading "fontStyle" "hasFontStyle" "font-style" "FontStyle";
     mkReading "fontSize" "hasFontSize" "font-size" "FontSize";
     mkReading "fontWeight" "hasFontWeight" "font-weight" "FontWeight";
     mkReading "color" "hasColor" "color" "Color";
     mkReading "placement" "hasPlacement" "placement" "AboveBelow"]
    [].

(* core/elements/HarmonyAttributes.cpp:13-109 *)
Definition harmonyAttributes : attributeClass :=
  mkAttributeClass "HarmonyAttributes"
    []
    ["hasType"; "hasPrintObject"; "hasPrintFrame"; "hasDefaultX"; "hasDefaultY"; "hasRelativeX"; "hasRelativeY"; "hasFontFamily"; "hasFontStyle"; "hasFontSize"; "hasFontWeight"; "hasColor"; "hasPlacement"]
    [mkWriting "type" "type" "hasType";
     mkWriting "printObject" "print-object" "hasPrintObject";
     mkWriting "printFrame" "print-frame" "hasPrintFrame";
     mkWriting "defaultX" "default-x" "hasDefaultX";
     mkWriting "defaultY" "default-y" "hasDefaultY";
     mkWriting "relativeX" "relative-x" "hasRelativeX";
     mkWriting "relativeY" "relative-y" "hasRelativeY";
     mkWriting "fontFamily" "font-family" "hasFontFamily";
     mkWriting "fontStyle" "font-style" "hasFontStyle";
     mkWriting "fontSize" "font-size" "hasFontSize";
     mkWriting "fontWeight" "font-weight" "hasFontWeight";
     mkWriting "color" "color" "hasColor";
     mkWriting "placement" "placement" "hasPlacement"]
    [mkReading "type" "hasType" "type" "HarmonyType";
     mkReading "printObject" "hasPrintObject" "print-object" "YesNo";
     mkReading "printFrame" "hasPrintFrame" "print-frame" "YesNo";
     mkReading "defaultX" "hasDefaultX" "default-x" "TenthsValue";
     mkReading "defaultY" "hasDefaultY" "default-y" "TenthsValue";
     mkReading "relativeX" "hasRelativeX" "relative-x" "TenthsValue";
     mkReading "relativeY" "hasRelativeY" "relative-y" "TenthsValue";
     mkReading "fontFamily" "hasFontFamily" "font-family" "CommaSeparatedText";
     mkReading "fontStyle" "hasFontStyle" "font-style" "FontStyle";
     mkReading "fontSize" "hasFontSize" "font-size" "FontSize";
     mkReading "fontWeight" "hasFontWeight" "font-weight" "FontWeight";
     mkReading "color" "hasColor" "color" "Color";
     mkReading "placement" "hasPlacement" "placement" "AboveBelow"]
    [].

(* core/elements/HarpPedalsAttributes.cpp:13-99 *)
Definition harpPedalsAttributes : attributeClass :=
  mkAttributeClass "HarpPedalsAttributes"
    []
    ["hasDefaultX"; "hasDefaultY"; "hasRelativeX"; "hasRelativeY"; "hasFontFamily"; "hasFontStyle"; "hasFontSize"; "hasFontWeight"; "hasColor"; "hasHalign"; "hasValign"]
    [mkWriting "defaultX" "default-x" "hasDefaultX";
     mkWriting "defaultY" "default-y" "hasDefaultY";
     mkWriting "relativeX" "relative-x" "hasRelativeX";
     mkWriting "relativeY" "relative-y" "hasRelativeY";
     mkWriting "fontFamily" "font-family" "hasFontFamily";
     mkWriting "fontStyle" "font-style" "hasFontStyle";
     mkWriting "fontSize" "font-size" "hasFontSize";
     mkWriting "fontWeight" "font-weight" "hasFontWeight";
     mkWriting "color" "color" "hasColor";
     mkWriting "halign" "halign" "hasHalign";
     mkWriting "valign" "valign" "hasValign"]
    [mkReading "defaultX" "hasDefaultX" "default-x" "TenthsValue";
     mkReading "defaultY" "hasDefaultY" "default-y" "TenthsValue";
     mkReading "relativeX" "hasRelativeX" "relative-x" "TenthsValue";
     mkReading "relativeY" "hasRelativeY" "relative-y" "TenthsValue";
     mkReading "fontFamily" "hasFontFamily" "font-family" "CommaSeparatedText";
     mkReading "fontStyle" "hasFontStyle" "font-style" "FontStyle";
     mkReading "fontSize" "hasFontSize" "font-size" "FontSize";
     mkReading "fontWeight" "hasFontWeight" "font-weight" "FontWeight";
     mkReading "color" "hasColor" "color" "Color";
     mkReading "halign" "hasHalign" "halign" "LeftCenterRight";
     mkReading "valign" "hasValign" "valign" "Valign"]
    [].

(* core/elements/HeelAttributes.cpp:13-99 *)
Definition heelAttributes : attributeClass :=
  mkAttributeClass "HeelAttributes"
    []
    ["hasDefaultX"; "hasDefaultY"; "hasRelativeX"; "hasRelativeY"; "hasFontFamily"; "hasFontStyle"; "hasFontSize"; "hasFontWeight"; "hasColor"; "hasPlacement"; "hasSubstitution"]
    [mkWriting "defaultX" "default-x" "hasDefaultX";
     mkWriting "defaultY" "default-y" "hasDefaultY";
     mkWriting "relativeX" "relative-x" "hasRelativeX";
     mkWriting "relativeY" "relative-y" "hasRelativeY";
     mkWriting "fontFamily" "font-family" "hasFontFamily";
     mkWriting "fontStyle" "font-style" "hasFontStyle";
     mkWriting "fontSize" "font-size" "hasFontSize";
     mkWriting "fontWeight" "font-weight" "hasFontWeight";
     mkWriting "color" "color" "hasColor";
     mkWriting "placement" "placement" "hasPlacement";
     mkWriting "substitution" "substitution" "hasSubstitution"]
    [mkReading "defaultX" "hasDefaultX" "default-x" "TenthsValue";
     mkReading "defaultY" "hasDefaultY" "default-y" "TenthsValue";
     mkReading "relativeX" "hasRelativeX" "relative-x" "TenthsValue";
     mkReading "relativeY" "hasRelativeY" "relative-y" "TenthsValue";
     mkReading "fontFamily" "hasFontFamily" "font-family" "CommaSeparatedText";
     mkReading "fontStyle" "hasFontStyle" "font-style" "FontStyle";
     mkReading "fontSize" "hasFontSize" "font-size" "FontSize";
     mkReading "fontWeight" "hasFontWeight" "font-weight" "FontWeight";
     mkReading "color" "hasColor" "color" "Color";
     mkReading "placement" "hasPlacement" "placement" "AboveBelow";
     mkReading "substitution" "hasSubstitution" "substitution" "YesNo"]
    [].

(* core/elements/HoleAttributes.cpp:13-94 *)
Definition holeAttributes : attributeClass :=
  mkAttributeClass "HoleAttributes"
    []
    ["hasDefaultX"; "hasDefaultY"; "hasRelativeX"; "hasRelativeY"; "hasFontFamily"; "hasFontStyle"; "hasFontSize"; "hasFontWeight"; "hasColor"; "hasPlacement"]
    [mkWriting "defaultX" "default-x" "hasDefaultX";
     mkWriting "defaultY" "default-y" "hasDefaultY";
     mkWriting "relativeX" "relative-x" "hasRelativeX";
     mkWriting "relativeY" "relative-y" "hasRelativeY";
     mkWriting "fontFamily" "font-family" "hasFontFamily";
     mkWriting "fontStyle" "font-style" "hasFontStyle";
     mkWriting "fontSize" "font-size" "hasFontSize";
     mkWriting "fontWeight" "font-weight" "hasFontWeight";
     mkWriting "color" "color" "hasColor";
     mkWriting "placement" "placement" "hasPlacement"]
    [mkReading "defaultX" "hasDefaultX" "default-x" "TenthsValue";
     mkReading "defaultY" "hasDefaultY" "default-y" "TenthsValue";
     mkReading "relativeX" "hasRelativeX" "relative-x" "TenthsValue";
     mkReading "relativeY" "hasRelativeY" "relative-y" "TenthsValue";
     mkReading "fontFamily" "hasFontFamily" "font-family" "CommaSeparatedText";
     mkReading "fontStyle" "hasFontStyle" "font-style" "FontStyle";
     mkReading "fontSize" "hasFontSize" "font-size" "FontSize";
     mkReading "fontWeight" "hasFontWeight" "font-weight" "FontWeight";
     mkReading "color" "hasColor" "color" "Color";
     mkReading "placement" "hasPlacement" "placement" "AboveBelow"]
    [].

(* core/elements/HoleClosedAttributes.cpp:13-49 *)
Definition holeClosedAttributes : attributeClass :=
  mkAttributeClass "HoleClosedAttributes"
    []
    ["hasLocation"]
    [mkWriting "location" "location" "hasLocation"]
    [mkReading "location" "hasLocation" "location" "HoleClosedLocation"]
    [].

(* core/elements/ImageAttributes.cpp:13-91 *)
Definition imageAttributes : attributeClass :=
  mkAttributeClass "ImageAttributes"
    ["hasSource"; "hasType"]
    ["hasSource"; "hasType"; "hasDefaultX"; "hasDefaultY"; "hasRelativeX"; "hasRelativeY"; "hasHalign"]
    [mkWriting "source" "source" "hasSource";
     mkWriting "type" "type" "hasType";
     mkWriting "defaultX" "default-x" "hasDefaultX";
     mkWriting "defaultY" "default-y" "hasDefaultY";
     mkWriting "relativeX" "relative-x" "hasRelativeX";
     mkWriting "relativeY" "relative-y" "hasRelativeY";
     mkWriting "halign" "halign" "hasHalign"]
    [mkReading "source" "isSourceFound" "source" "XsAnyUri";
     mkReading "type" "isTypeFound" "type" "XsToken";
     mkReading "defaultX" "hasDefaultX" "default-x" "TenthsValue";
     mkReading "defaultY" "hasDefaultY" "default-y" "TenthsValue";
     mkReading "relativeX" "hasRelativeX" "relative-x" "TenthsValue";
     mkReading "relativeY" "hasRelativeY" "relative-y" "TenthsValue";
     mkReading "halign" "hasHalign" "halign" "LeftCenterRight"]
    ["isSourceFound"; "isTypeFound"].

(* core/elements/InstrumentAttributes.cpp:13-55 *)
Definition instrumentAttributes : attributeClass :=
  mkAttributeClass "InstrumentAttributes"
    ["hasId"]
    ["hasId"]
    [mkWriting "id" "id" "hasId"]
    [mkReading "id" "isIdFound" "id" "XsIDREF"]
    ["isIdFound"].

(* core/elements/InterchangeableAttributes.cpp:13-53 *)
Definition interchangeableAttributes : attributeClass :=
  mkAttributeClass "InterchangeableAttributes"
    []
    ["hasSymbol"; "hasSeparator"]
    [mkWriting "symbol" "symbol" "hasSymbol";
     mkWriting "separator" "separator" "hasSeparator"]
    [mkReading "symbol" "hasSymbol" "symbol" "TimeSymbol";
     mkReading "separator" "hasSeparator" "separator" "TimeSeparator"]
    [].

(* core/elements/InversionAttributes.cpp:13-84 *)
Definition inversionAttributes : attributeClass :=
  mkAttributeClass "InversionAttributes"
    []
    ["hasDefaultX"; "hasDefaultY"; "hasRelativeX"; "hasRelativeY"; "hasFontFamily"; "hasFontStyle"; "hasFontSize"; "hasFontWeight"]
    [mkWriting "defaultX" "default-x" "hasDefaultX";
     mkWriting "defaultY" "default-y" "hasDefaultY";
     mkWriting "relativeX" "relative-x" "hasRelativeX";
     mkWriting "relativeY" "relative-y" "hasRelativeY";
     mkWriting "fontFamily" "font-family" "hasFontFamily";
     mkWriting "fontStyle" "font-style" "hasFontStyle";
     mkWriting "fontSize" "font-size" "hasFontSize";
     mkWriting "fontWeight" "font-weight" "hasFontWeight"]
    [mkReading "defaultX" "hasDefaultX" "default-x" "TenthsValue";
     mkReading "defaultY" "hasDefaultY" "default-y" "TenthsValue";
     mkReading "relativeX" "hasRelativeX" "relative-x" "TenthsValue";
     mkReading "relativeY" "hasRelativeY" "relative-y" "TenthsValue";
     mkReading "fontFamily" "hasFontFamily" "font-family" "CommaSeparatedText";
     mkReading "fontStyle" "hasFontStyle" "font-style" "FontStyle";
     mkReading "fontSize" "hasFontSize" "font-size" "FontSize";
     mkReading "fontWeight" "hasFontWeight" "font-weight" "FontWeight"]
    [].

(* core/elements/InvertedMordentAttributes.cpp:14-145 *)
Definition invertedMordentAttributes : attributeClass :=
  mkAttributeClass "InvertedMordentAttributes"
    []
    ["hasDefaultX"; "hasDefaultY"; "hasRelativeX"; "hasRelativeY"; "hasFontFamily"; "hasFontStyle"; "hasFontSize"; "hasFontWeight"; "hasColor"; "hasPlacement"; "hasStartNote"; "hasTrillStep"; "hasTwoNoteTurn"; "hasAccelerate"; "hasBeats"; "hasSecondBeat"; "hasLastBeat"; "hasLong"; "hasApproach"; "hasDeparture"]
    [mkWriting "defaultX" "default-x" "hasDefaultX";
     mkWriting "defaultY" "default-y" "hasDefaultY";
     mkWriting "relativeX" "relative-x" "hasRelativeX";
     mkWriting "relativeY" "relative-y" "hasRelativeY";
     mkWriting "fontFamily" "font-family" "hasFontFamily";
     mkWriting "fontStyle" "font-style" "hasFontStyle";
     mkWriting "fontSize" "font-size" "hasFontSize";
     mkWriting "fontWeight" "font-weight" "hasFontWeight";
     mkWriting "color" "color" "hasColor";
     mkWriting "placement" "placement" "hasPlacement";
     mkWriting "startNote" "start-note" "hasStartNote";
     mkWriting "trillStep" "trill-step" "hasTrillStep";
     mkWriting "twoNoteTurn" "two-note-turn" "hasTwoNoteTurn";
     mkWriting "accelerate" "accelerate" "hasAccelerate";
     mkWriting "beats" "beats" "hasBeats";
     mkWriting "secondBeat" "second-beat" "hasSecondBeat";
     mkWriting "lastBeat" "last-beat" "hasLastBeat";
     mkWriting "long_" "long" "hasLong";
     mkWriting "approach" "approach" "hasApproach";
     mkWriting "departure" "departure" "hasDeparture"]
    [mkReading "defaultX" "hasDefaultX" "default-x" "TenthsValue";
     mkReading "defaultY" "hasDefaultY" "default-y" "TenthsValue";
     mkReading "relativeX" "hasRelativeX" "relative-x" "TenthsValue";
     mkReading "relativeY" "hasRelativeY" "relative-y" "TenthsValue";
     mkReading "fontFamily" "hasFontFamily" "font-family" "CommaSeparatedText";
     mkReading "fontStyle" "hasFontStyle" "font-style" "FontStyle";
     mkReading "fontSize" "hasFontSize" "font-size" "FontSize";
     mkReading "fontWeight" "hasFontWeight" "font-weight" "FontWeight";
     mkReading "color" "hasColor" "color" "Color";
     mkReading "placement" "hasPlacement" "placement" "AboveBelow";
     mkReading "startNote" "hasStartNote" "start-note" "StartNote";
     mkReading "trillStep" "hasTrillStep" "trill-step" "TrillStep";
     mkReading "twoNoteTurn" "hasTwoNoteTurn" "two-note-turn" "TwoNoteTurn";
     mkReading "accelerate" "hasAccelerate" "accelerate" "YesNo";
     mkReading "beats" "hasBeats" "beats" "TrillBeats";
     mkReading "secondBeat" "hasSecondBeat" "second-beat" "Percent";
     mkReading "lastBeat" "hasLastBeat" "last-beat" "Percent";
     mkReading "long_" "hasLong" "long" "YesNo";
     mkReading "approach" "hasApproach" "approach" "AboveBelow";
     mkReading "departure" "hasDeparture" "departure" "AboveBelow"]
    [].

(* core/elements/InvertedTurnAttributes.cpp:13-129 *)
Definition invertedTurnAttributes : attributeClass :=
  mkAttributeClass "InvertedTurnAttributes"
    []
    ["hasDefaultX"; "hasDefaultY"; "hasRelativeX"; "hasRelativeY"; "hasFontFamily"; "hasFontStyle"; "hasFontSize"; "hasFontWeight"; "hasPlacement"; "hasStartNote"; "hasTrillStep"; "hasTwoNoteTurn"; "hasAccelerate"; "hasBeats"; "hasSecondBeat"; "hasLastBeat"; "hasSlash"]
    [mkWriting "defaultX" "default-x" "hasDefaultX";
     mkWriting "defaultY" "default-y" "hasDefaultY";
     mkWriting "relativeX" "relative-x" "hasRelativeX";
     mkWriting "relativeY" "relative-y" "hasRelativeY";
     mkWriting "fontFamily" "font-family" "hasFontFamily";
     mkWriting "fontStyle" "font-style" "hasFontStyle";
     mkWriting "fontSize" "font-size" "hasFontSize";
     mkWriting "fontWeight" "font-weight" "hasFontWeight";
     mkWriting "placement" "placement" "hasPlacement";
     mkWriting "startNote" "start-note" "hasStartNote";
     mkWriting "trillStep" "trill-step" "hasTrillStep";
     mkWriting "twoNoteTurn" "two-note-turn" "hasTwoNoteTurn";
     mkWriting "accelerate" "accelerate" "hasAccelerate";
     mkWriting "beats" "beats" "hasBeats";
     mkWriting "secondBeat" "second-beat" "hasSecondBeat";
     mkWriting "lastBeat" "last-beat" "hasLastBeat";
     mkWriting "slash" "slash" "hasSlash"]
    [mkReading "defaultX" "hasDefaultX" "default-x" "TenthsValue";
     mkReading "defaultY" "hasDefaultY" "default-y" "TenthsValue";
     mkReading "relativeX" "hasRelativeX" "relative-x" "TenthsValue";
     mkReading "relativeY" "hasRelativeY" "relative-y" "TenthsValue";
     mkReading "fontFamily" "hasFontFamily" "font-family" "CommaSeparatedText";
     mkReading "fontStyle" "hasFontStyle" "font-style" "FontStyle";
     mkReading "fontSize" "hasFontSize" "font-size" "FontSize";
     mkReading "fontWeight" "hasFontWeight" "font-weight" "FontWeight";
     mkReading "placement" "hasPlacement" "placement" "AboveBelow";
     mkReading "startNote" "hasStartNote" "start-note" "StartNote";
     mkReading "trillStep" "hasTrillStep" "trill-step" "TrillStep";
     mkReading "twoNoteTurn" "hasTwoNoteTurn" "two-note-turn" "TwoNoteTurn";
     mkReading "accelerate" "hasAccelerate" "accelerate" "YesNo";
     mkReading "beats" "hasBeats" "beats" "TrillBeats";
     mkReading "secondBeat" "hasSecondBeat" "second-beat" "Percent";
     mkReading "lastBeat" "hasLastBeat" "last-beat" "Percent";
     mkReading "slash" "hasSlash" "slash" "YesNo"]
    [].

(* core/elements/KeyAttributes.cpp:13-101 *)
Definition keyAttributes : attributeClass :=
  mkAttributeClass "KeyAttributes"
    []
    ["hasNumber"; "hasDefaultX"; "hasDefaultY"; "hasRelativeX"; "hasRelativeY"; "hasFontFamily"; "hasFontStyle"; "hasFontSize"; "hasFontWeight"; "hasColor"; "hasPrintObject"]
    [mkWriting "number" "number" "hasNumber";
     mkWriting "defaultX" "default-x" "hasDefaultX";
     mkWriting "defaultY" "default-y" "hasDefaultY";
     mkWriting "relativeX" "relative-x" "hasRelativeX";
     mkWriting "relativeY" "relative-y" "hasRelativeY";
     mkWriting "fontFamily" "font-family" "hasFontFamily";
     mkWriting "fontStyle" "font-style" "hasFontStyle";
     mkWriting "fontSize" "font-size" "hasFontSize";
     mkWriting "fontWeight" "font-weight" "hasFontWeight";
     mkWriting "color" "color" "hasColor";
     mkWriting "printObject" "print-object" "hasPrintObject"]
    [mkReading "number" "hasNumber" "number" "StaffNumber";
     mkReading "defaultX" "hasDefaultX" "default-x" "TenthsValue";
     mkReading "defaultY" "hasDefaultY" "default-y" "TenthsValue";
     mkReading "relativeX" "hasRelativeX" "relative-x" "TenthsValue";
     mkReading "relativeY" "hasRelativeY" "relative-y" "TenthsValue";
     mkReading "fontFamily" "hasFontFamily" "font-family" "CommaSeparatedText";
     mkReading "fontStyle" "hasFontStyle" "font-style" "FontStyle";
     mkReading "fontSize" "hasFontSize" "font-size" "FontSize";
     mkReading "fontWeight" "hasFontWeight" "font-weight" "FontWeight";
     mkReading "color" "hasColor" "color" "Color";
     mkReading "printObject" "hasPrintObject" "print-object" "YesNo"]
    [].

(* core/elements/KeyOctaveAttributes.cpp:13-60 *)
Definition keyOctaveAttributes : attributeClass :=
  mkAttributeClass "KeyOctaveAttributes"
    ["hasNumber"]
    ["hasNumber"; "hasCancel"]
    [mkWriting "number" "number" "hasNumber";
     mkWriting "cancel" "cancel" "hasCancel"]
    [mkReading "number" "isNumberFound" "number" "PositiveInteger";
     mkReading "cancel" "hasCancel" "cancel" "YesNo"]
    ["isNumberFound"].

(* core/elements/KindAttributes.cpp:13-114 *)
Definition kindAttributes : attributeClass :=
  mkAttributeClass "KindAttributes"
    []
    ["hasUseSymbols"; "hasText"; "hasStackDegrees"; "hasParenthesesDegrees"; "hasBracketDegrees"; "hasDefaultX"; "hasDefaultY"; "hasRelativeX"; "hasRelativeY"; "hasFontFamily"; "hasFontStyle"; "hasFontSize"; "hasFontWeight"; "hasHalign"]
    [mkWriting "useSymbols" "use-symbols" "hasUseSymbols";
     mkWriting "text" "text" "hasText";
     mkWriting "stackDegrees" "stack-degrees" "hasStackDegrees";
     mkWriting "parenthesesDegrees" "parentheses-degrees" "hasParenthesesDegrees";
     mkWriting "bracketDegrees" "bracket-degrees" "hasBracketDegrees";
     mkWriting "defaultX" "default-x" "hasDefaultX";
     mkWriting "defaultY" "default-y" "hasDefaultY";
     mkWriting "relativeX" "relative-x" "hasRelativeX";
     mkWriting "relativeY" "relative-y" "hasRelativeY";
     mkWriting "fontFamily" "font-family" "hasFontFamily";
     mkWriting "fontStyle" "font-style" "hasFontStyle";
     mkWriting "fontSize" "font-size" "hasFontSize";
     mkWriting "fontWeight" "font-weight" "hasFontWeight";
     mkWriting "halign" "halign" "hasHalign"]
    [mkReading "useSymbols" "hasUseSymbols" "use-symbols" "YesNo";
     mkReading "text" "hasText" "text" "XsToken";
     mkReading "stackDegrees" "hasStackDegrees" "stack-degrees" "YesNo";
     mkReading "parenthesesDegrees" "hasParenthesesDegrees" "parentheses-degrees" "YesNo";
     mkReading "bracketDegrees" "hasBracketDegrees" "bracket-degrees" "YesNo";
     mkReading "defaultX" "hasDefaultX" "default-x" "TenthsValue";
     mkReading "defaultY" "hasDefaultY" "default-y" "TenthsValue";
     mkReading "relativeX" "hasRelativeX" "relative-x" "TenthsValue";
     mkReading "relativeY" "hasRelativeY" "relative-y" "TenthsValue";
     mkReading "fontFamily" "hasFontFamily" "font-family" "CommaSeparatedText";
     mkReading "fontStyle" "hasFontStyle" "font-style" "FontStyle";
     mkReading "fontSize" "hasFontSize" "font-size" "FontSize";
     mkReading "fontWeight" "hasFontWeight" "font-weight" "FontWeight";
     mkReading "halign" "hasHalign" "halign" "LeftCenterRight"]
    [].

(* core/elements/LevelAttributes.cpp:13-64 *)
Definition levelAttributes : attributeClass :=
  mkAttributeClass "LevelAttributes"
    []
    ["hasReference"; "hasParentheses"; "hasBracket"; "hasSize"]
    [mkWriting "reference" "reference" "hasReference";
     mkWriting "parentheses" "parentheses" "hasParentheses";
     mkWriting "bracket" "bracket" "hasBracket";
     mkWriting "size" "size" "hasSize"]
    [mkReading "reference" "hasReference" "reference" "YesNo";
     mkReading "parentheses" "hasParentheses" "parentheses" "YesNo";
     mkReading "bracket" "hasBracket" "bracket" "YesNo";
     mkReading "size" "hasSize" "size" "SymbolSize"]
    [].

(* core/elements/LineWidthAttributes.cpp:13-55 *)
Definition lineWidthAttributes : attributeClass :=
  mkAttributeClass "LineWidthAttributes"
    ["hasType"]
    ["hasType"]
    [mkWriting "type" "type" "hasType"]
    [mkReading "type" "isTypeFound" "type" "LineWidthType"]
    ["isTypeFound"].

(* core/elements/LinkAttributes.cpp:13-121 *)
Definition linkAttributes : attributeClass :=
  mkAttributeClass "LinkAttributes"
    ["hasHref"]
    ["hasHref"; "hasType"; "hasRole"; "hasTitle"; "hasShow"; "hasActuate"; "hasName"; "hasElement"; "hasPosition"; "hasDefaultX"; "hasDefaultY"; "hasRelativeX"; "hasRelativeY"]
    [mkWriting "href" "xlink:href" "hasHref";
     mkWriting "type" "xlink:type" "hasType";
     mkWriting "role" "xlink:role" "hasRole";
     mkWriting "title" "xlink:title" "hasTitle";
     mkWriting "show" "xlink:show" "hasShow";
     mkWriting "actuate" "xlink:actuate" "hasActuate";
     mkWriting "name" "name" "hasName";
     mkWriting "element" "element" "hasElement";
     mkWriting "position" "position" "hasPosition";
     mkWriting "defaultX" "default-x" "hasDefaultX";
     mkWriting "defaultY" "default-y" "hasDefaultY";
     mkWriting "relativeX" "relative-x" "hasRelativeX";
     mkWriting "relativeY" "relative-y" "hasRelativeY"]
    [mkReading "href" "isHrefFound" "href" "XlinkHref";
     mkReading "role" "hasRole" "role" "XlinkRole";
     mkReading "title" "hasTitle" "title" "XlinkTitle";
     mkReading "show" "hasShow" "show" "XlinkShow";
     mkReading "actuate" "hasActuate" "actuate" "XlinkActuate";
     mkReading "name" "hasName" "name" "XsToken";
     mkReading "element" "hasElement" "element" "XsNMToken";
     mkReading "position" "hasPosition" "position" "PositiveInteger";
     mkReading "defaultX" "hasDefaultX" "default-x" "TenthsValue";
     mkReading "defaultY" "hasDefaultY" "default-y" "TenthsValue";
     mkReading "relativeX" "hasRelativeX" "relative-x" "TenthsValue";
     mkReading "relativeY" "hasRelativeY" "relative-y" "TenthsValue"]
    ["isHrefFound"].

(* core/elements/LyricAttributes.cpp:13-94 *)
Definition lyricAttributes : attributeClass :=
  mkAttributeClass "LyricAttributes"
    []
    ["hasNumber"; "hasName"; "hasJustify"; "hasDefaultX"; "hasDefaultY"; "hasRelativeX"; "hasRelativeY"; "hasPlacement"; "hasColor"; "hasPrintObject"]
    [mkWriting "number" "number" "hasNumber";
     mkWriting "name" "name" "hasName";
     mkWriting "justify" "justify" "hasJustify";
     mkWriting "defaultX" "default-x" "hasDefaultX";
     mkWriting "defaultY" "default-y" "hasDefaultY";
     mkWriting "relativeX" "relative-x" "hasRelativeX";
     mkWriting "relativeY" "relative-y" "hasRelativeY";
     mkWriting "placement" "placement" "hasPlacement";
     mkWriting "color" "color" "hasColor";
     mkWriting "printObject" "print-object" "hasPrintObject"]
    [mkReading "number" "hasNumber" "number" "XsNMToken";
     mkReading "name" "hasName" "name" "XsToken";
     mkReading "justify" "hasJustify" "justify" "LeftCenterRight";
     mkReading "defaultX" "hasDefaultX" "default-x" "TenthsValue";
     mkReading "defaultY" "hasDefaultY" "default-y" "TenthsValue";
     mkReading "relativeX" "hasRelativeX" "relative-x" "TenthsValue";
     mkReading "relativeY" "hasRelativeY" "relative-y" "TenthsValue";
     mkReading "placement" "hasPlacement" "placement" "AboveBelow";
     mkReading "color" "hasColor" "color" "Color";
     mkReading "printObject" "hasPrintObject" "print-object" "YesNo"]
    [].

(* core/elements/LyricFontAttributes.cpp:13-74 *)
Definition lyricFontAttributes : attributeClass :=
  mkAttributeClass "LyricFontAttributes"
    []
    ["hasNumber"; "hasName"; "hasFontFamily"; "hasFontStyle"; "hasFontSize"; "hasFontWeight"]
    [mkWriting "number" "number" "hasNumber";
     mkWriting "name" "name" "hasName";
     mkWriting "fontFamily" "font-family" "hasFontFamily";
     mkWriting "fontStyle" "font-style" "hasFontStyle";
     mkWriting "fontSize" "font-size" "hasFontSize";
     mkWriting "fontWeight" "font-weight" "hasFontWeight"]
    [mkReading "number" "hasNumber" "number" "XsNMToken";
     mkReading "name" "hasName" "name" "XsToken";
     mkReading "fontFamily" "hasFontFamily" "font-family" "CommaSeparatedText";
     mkReading "fontStyle" "hasFontStyle" "font-style" "FontStyle";
     mkReading "fontSize" "hasFontSize" "font-size" "FontSize";
     mkReading "fontWeight" "hasFontWeight" "font-weight" "FontWeight"]
    [].

(* core/elements/LyricLanguageAttributes.cpp:13-66 *)
Definition lyricLanguageAttributes : attributeClass :=
  mkAttributeClass "LyricLanguageAttributes"
    ["hasLang"]
    ["hasNumber"; "hasName"; "hasLang"]
    [mkWriting "number" "number" "hasNumber";
     mkWriting "name" "name" "hasName";
     mkWriting "lang" "xml:lang" "hasLang"]
    [mkReading "number" "hasNumber" "number" "XsNMToken";
     mkReading "name" "hasName" "name" "XsToken";
     mkReading "lang" "isLangFound" "xml:lang" "XmlLang";
     mkReading "lang" "isLangFound" "lang" "XmlLang"]
    ["isLangFound"].

(* core/elements/MeasureAttributes.cpp:14-71 *)
Definition measureAttributes : attributeClass :=
  mkAttributeClass "MeasureAttributes"
    ["hasNumber"]
    ["hasNumber"; "hasImplicit"; "hasNonControlling"; "hasWidth"]
    [mkWriting "number" "number" "hasNumber";
     mkWriting "implicit" "implicit" "hasImplicit";
     mkWriting "nonControlling" "non-controlling" "hasNonControlling";
     mkWriting "width" "width" "hasWidth"]
    [mkReading "number" "isNumberFound" "number" "XsToken";
     mkReading "implicit" "hasImplicit" "implicit" "YesNo";
     mkReading "nonControlling" "hasNonControlling" "non-controlling" "YesNo";
     mkReading "width" "hasWidth" "width" "TenthsValue"]
    ["isNumberFound"].

(* core/elements/MeasureNumberingAttributes.cpp:13-89 *)
Definition measureNumberingAttributes : attributeClass :=
  mkAttributeClass "MeasureNumberingAttributes"
    []
    ["hasDefaultX"; "hasDefaultY"; "hasRelativeX"; "hasRelativeY"; "hasFontFamily"; "hasFontStyle"; "hasFontSize"; "hasFontWeight"; "hasHalign"]
    [mkWriting "defaultX" "default-x" "hasDefaultX";
     mkWriting "defaultY" "default-y" "hasDefaultY";
     mkWriting "relativeX" "relative-x" "hasRelativeX";
     mkWriting "relativeY" "relative-y" "hasRelativeY";
     mkWriting "fontFamily" "font-family" "hasFontFamily";
     mkWriting "fontStyle" "font-style" "hasFontStyle";
     mkWriting "fontSize" "font-size" "hasFontSize";
     mkWriting "fontWeight" "font-weight" "hasFontWeight";
     mkWriting "halign" "halign" "hasHalign"]
    [mkReading "defaultX" "hasDefaultX" "default-x" "TenthsValue";
     mkReading "defaultY" "hasDefaultY" "default-y" "TenthsValue";
     mkReading "relativeX" "hasRelativeX" "relative-x" "TenthsValue";
     mkReading "relativeY" "hasRelativeY" "relative-y" "TenthsValue";
     mkReading "fontFamily" "hasFontFamily" "font-family" "CommaSeparatedText";
     mkReading "fontStyle" "hasFontStyle" "font-style" "FontStyle";
     mkReading "fontSize" "hasFontSize" "font-size" "FontSize";
     mkReading "fontWeight" "hasFontWeight" "font-weight" "FontWeight";
     mkReading "halign" "hasHalign" "halign" "LeftCenterRight"]
    [].

(* core/elements/MeasureRepeatAttributes.cpp:13-60 *)
Definition measureRepeatAttributes : attributeClass :=
  mkAttributeClass "MeasureRepeatAttributes"
    ["hasType"]
    ["hasType"; "hasSlashes"]
    [mkWriting "type" "type" "hasType";
     mkWriting "slashes" "slashes" "hasSlashes"]
    [mkReading "type" "isTypeFound" "type" "StartStop";
     mkReading "slashes" "hasSlashes" "slashes" "PositiveInteger"]
    ["isTypeFound"].

(* core/elements/MeasureStyleAttributes.cpp:13-74 *)
Definition measureStyleAttributes : attributeClass :=
  mkAttributeClass "MeasureStyleAttributes"
    []
    ["hasNumber"; "hasFontFamily"; "hasFontStyle"; "hasFontSize"; "hasFontWeight"; "hasColor"]
    [mkWriting "number" "number" "hasNumber";
     mkWriting "fontFamily" "font-family" "hasFontFamily";
     mkWriting "fontStyle" "font-style" "hasFontStyle";
     mkWriting "fontSize" "font-size" "hasFontSize";
     mkWriting "fontWeight" "font-weight" "hasFontWeight";
     mkWriting "color" "color" "hasColor"]
    [mkReading "number" "hasNumber" "number" "StaffNumber";
     mkReading "fontFamily" "hasFontFamily" "font-family" "CommaSeparatedText";
     mkReading "fontStyle" "hasFontStyle" "font-style" "FontStyle";
     mkReading "fontSize" "hasFontSize" "font-size" "FontSize";
     mkReading "fontWeight" "hasFontWeight" "font-weight" "FontWeight";
     mkReading "color" "hasColor" "color" "Color"]
    [].

(* core/elements/MetronomeAttributes.cpp:13-109 *)
Definition metronomeAttributes : attributeClass :=
  mkAttributeClass "MetronomeAttributes"
    []
    ["hasDefaultX"; "hasDefaultY"; "hasRelativeX"; "hasRelativeY"; "hasFontFamily"; "hasFontStyle"; "hasFontSize"; "hasFontWeight"; "hasColor"; "hasHalign"; "hasValign"; "hasJustify"; "hasParentheses"]
    [mkWriting "defaultX" "default-x" "hasDefaultX";
     mkWriting "defaultY" "default-y" "hasDefaultY";
     mkWriting "relativeX" "relative-x" "hasRelativeX";
     mkWriting "relativeY" "relative-y" "hasRelativeY";
     mkWriting "fontFamily" "font-family" "hasFontFamily";
     mkWriting "fontStyle" "font-style" "hasFontStyle";
     mkWriting "fontSize" "font-size" "hasFontSize";
     mkWriting "fontWeight" "font-weight" "hasFontWeight";
     mkWriting "color" "color" "hasColor";
     mkWriting "halign" "halign" "hasHalign";
     mkWriting "valign" "valign" "hasValign";
     mkWriting "justify" "justify" "hasJustify";
     mkWriting "parentheses" "parentheses" "hasParentheses"]
    [mkReading "defaultX" "hasDefaultX" "default-x" "TenthsValue";
     mkReading "defaultY" "hasDefaultY" "default-y" "TenthsValue";
     mkReading "relativeX" "hasRelativeX" "relative-x" "TenthsValue";
     mkReading "relativeY" "hasRelativeY" "relative-y" "TenthsValue";
     mkReading "fontFamily" "hasFontFamily" "font-family" "CommaSeparatedText";
     mkReading "fontStyle" "hasFontStyle" "font-style" "FontStyle";
     mkReading "fontSize" "hasFontSize" "font-size" "FontSize";
     mkReading "fontWeight" "hasFontWeight" "font-weight" "FontWeight";
     mkReading "color" "hasColor" "color" "Color";
     mkReading "halign" "hasHalign" "halign" "LeftCenterRight";
     mkReading "valign" "hasValign" "valign" "Valign";
     mkReading "justify" "hasJustify" "justify" "LeftCenterRight";
     mkReading "parentheses" "hasParentheses" "parentheses" "YesNo"]
    [].

(* core/elements/MetronomeBeamAttributes.cpp:13-49 *)
Definition metronomeBeamAttributes : attributeClass :=
  mkAttributeClass "MetronomeBeamAttributes"
    []
    ["hasNumber"]
    [mkWriting "number" "number" "hasNumber"]
    [mkReading "number" "hasNumber" "number" "BeamLevel"]
    [].

(* core/elements/MetronomeTupletAttributes.cpp:13-65 *)
Definition metronomeTupletAttributes : attributeClass :=
  mkAttributeClass "MetronomeTupletAttributes"
    ["hasType"]
    ["hasType"; "hasBracket"; "hasShowNumber"]
    [mkWriting "type" "type" "hasType";
     mkWriting "bracket" "bracket" "hasBracket";
     mkWriting "showNumber" "show-number" "hasShowNumber"]
    [mkReading "type" "isTypeFound" "type" "StartStop";
     mkReading "bracket" "hasBracket" "bracket" "YesNo";
     mkReading "showNumber" "hasShowNumber" "show-number" "ShowTuplet"]
    ["isTypeFound"].

(* core/elements/MidiDeviceAttributes.cpp:13-54 *)
Definition midiDeviceAttributes : attributeClass :=
  mkAttributeClass "MidiDeviceAttributes"
    []
    ["hasPort"; "hasId"]
    [mkWriting "port" "port" "hasPort";
     mkWriting "id" "id" "hasId"]
    [mkReading "port" "hasPort" "port" "Midi16";
     mkReading "id" "hasId" "id" "XsIDREF"]
    [].

(* core/elements/MidiInstrumentAttributes.cpp:13-55 *)
Definition midiInstrumentAttributes : attributeClass :=
  mkAttributeClass "MidiInstrumentAttributes"
    ["hasId"]
    ["hasId"]
    [mkWriting "id" "id" "hasId"]
    [mkReading "id" "isIdFound" "id" "XsIDREF"]
    ["isIdFound"].

(* core/elements/MiscellaneousFieldAttributes.cpp:13-55 *)
Definition miscellaneousFieldAttributes : attributeClass :=
  mkAttributeClass "MiscellaneousFieldAttributes"
    ["hasName"]
    ["hasName"]
    [mkWriting "name" "name" "hasName"]
    [mkReading "name" "isNameFound" "name" "XsToken"]
    ["isNameFound"].

(* core/elements/MordentAttributes.cpp:13-144 *)
Definition mordentAttributes : attributeClass :=
  mkAttributeClass "MordentAttributes"
    []
    ["hasDefaultX"; "hasDefaultY"; "hasRelativeX"; "hasRelativeY"; "hasFontFamily"; "hasFontStyle"; "hasFontSize"; "hasFontWeight"; "hasColor"; "hasPlacement"; "hasStartNote"; "hasTrillStep"; "hasTwoNoteTurn"; "hasAccelerate"; "hasBeats"; "hasSecondBeat"; "hasLastBeat"; "hasLong"; "hasApproach"; "hasDeparture"]
    [mkWriting "defaultX" "default-x" "hasDefaultX";
     mkWriting "defaultY" "default-y" "hasDefaultY";
     mkWriting "relativeX" "relative-x" "hasRelativeX";
     mkWriting "relativeY" "relative-y" "hasRelativeY";
     mkWriting "fontFamily" "font-family" "hasFontFamily";
     mkWriting "fontStyle" "font-style" "hasFontStyle";
     mkWriting "fontSize" "font-size" "hasFontSize";
     mkWriting "fontWeight" "font-weight" "hasFontWeight";
     mkWriting "color" "color" "hasColor";
     mkWriting "placement" "placement" "hasPlacement";
     mkWriting "startNote" "start-note" "hasStartNote";
     mkWriting "trillStep" "trill-step" "hasTrillStep";
     mkWriting "twoNoteTurn" "two-note-turn" "hasTwoNoteTurn";
     mkWriting "accelerate" "accelerate" "hasAccelerate";
     mkWriting "beats" "beats" "hasBeats";
     mkWriting "secondBeat" "second-beat" "hasSecondBeat";
     mkWriting "lastBeat" "last-beat" "hasLastBeat";
     mkWriting "long_" "long" "hasLong";
     mkWriting "approach" "approach" "hasApproach";
     mkWriting "departure" "departure" "hasDeparture"]
    [mkReading "defaultX" "hasDefaultX" "default-x" "TenthsValue";
     mkReading "defaultY" "hasDefaultY" "default-y" "TenthsValue";
     mkReading "relativeX" "hasRelativeX" "relative-x" "TenthsValue";
     mkReading "relativeY" "hasRelativeY" "relative-y" "TenthsValue";
     mkReading "fontFamily" "hasFontFamily" "font-family" "CommaSeparatedText";
     mkReading "fontStyle" "hasFontStyle" "font-style" "FontStyle";
     mkReading "fontSize" "hasFontSize" "font-size" "FontSize";
     mkReading "fontWeight" "hasFontWeight" "font-weight" "FontWeight";
     mkReading "color" "hasColor" "color" "Color";
     mkReading "placement" "hasPlacement" "placement" "AboveBelow";
     mkReading "startNote" "hasStartNote" "start-note" "StartNote";
     mkReading "trillStep" "hasTrillStep" "trill-step" "TrillStep";
     mkReading "twoNoteTurn" "hasTwoNoteTurn" "two-note-turn" "TwoNoteTurn";
     mkReading "accelerate" "hasAccelerate" "accelerate" "YesNo";
     mkReading "beats" "hasBeats" "beats" "TrillBeats";
     mkReading "secondBeat" "hasSecondBeat" "second-beat" "Percent";
     mkReading "lastBeat" "hasLastBeat" "last-beat" "Percent";
     mkReading "long_" "hasLong" "long" "YesNo";
     mkReading "approach" "hasApproach" "approach" "AboveBelow";
     mkReading "departure" "hasDeparture" "departure" "AboveBelow"]
    [].

(* core/elements/MultipleRestAttributes.cpp:13-49 *)
Definition multipleRestAttributes : attributeClass :=
  mkAttributeClass "MultipleRestAttributes"
    []
    ["hasUseSymbols"]
    [mkWriting "useSymbols" "use-symbols" "hasUseSymbols"]
    [mkReading "useSymbols" "hasUseSymbols" "use-symbols" "YesNo"]
    [].

(* core/elements/NonArpeggiateAttributes.cpp:13-85 *)
Definition nonArpeggiateAttributes : attributeClass :=
  mkAttributeClass "NonArpeggiateAttributes"
    ["hasType"]
    ["hasType"; "hasNumber"; "hasDefaultX"; "hasDefaultY"; "hasRelativeX"; "hasRelativeY"; "hasPlacement"]
    [mkWriting "type" "type" "hasType";
     mkWriting "number" "number" "hasNumber";
     mkWriting "defaultX" "default-x" "hasDefaultX";
     mkWriting "defaultY" "default-y" "hasDefaultY";
     mkWriting "relativeX" "relative-x" "hasRelativeX";
     mkWriting "relativeY" "relative-y" "hasRelativeY";
     mkWriting "placement" "placement" "hasPlacement"]
    [mkReading "type" "isTypeFound" "type" "TopBottom";
     mkReading "number" "hasNumber" "number" "NumberLevel";
     mkReading "defaultX" "hasDefaultX" "default-x" "TenthsValue";
     mkReading "defaultY" "hasDefaultY" "default-y" "TenthsValue";
     mkReading "relativeX" "hasRelativeX" "relative-x" "TenthsValue";
     mkReading "relativeY" "hasRelativeY" "relative-y" "TenthsValue";
     mkReading "placement" "hasPlacement" "placement" "AboveBelow"]
    ["isTypeFound"].

(* core/elements/NotationsAttributes.cpp:13-49 *)
Definition notationsAttributes : attributeClass :=
  mkAttributeClass "NotationsAttributes"
    []
    ["hasPrintObject"]
    [mkWriting "printObject" "print-object" "hasPrintObject"]
    [mkReading "printObject" "hasPrintObject" "print-object" "YesNo"]
    [].

(* core/elements/NoteAttributes.cpp:13-139 *)
Definition noteAttributes : attributeClass :=
  mkAttributeClass "NoteAttributes"
    []
    ["hasDefaultX"; "hasDefaultY"; "hasRelativeX"; "hasRelativeY"; "hasFontFamily"; "hasFontStyle"; "hasFontSize"; "hasFontWeight"; "hasColor"; "hasPrintObject"; "hasPrintDot"; "hasPrintSpacing"; "hasPrintLyric"; "hasDynamics"; "hasEndDynamics"; "hasAttack"; "hasRelease"; "hasTimeOnly"; "hasPizzicato"]
    [mkWriting "defaultX" "default-x" "hasDefaultX";
     mkWriting "defaultY" "default-y" "hasDefaultY";
     mkWriting "relativeX" "relative-x" "hasRelativeX";
     mkWriting "relativeY" "relative-y" "hasRelativeY";
     mkWriting "fontFamily" "font-family" "hasFontFamily";
     mkWriting "fontStyle" "font-style" "hasFontStyle";
     mkWriting "fontSize" "font-size" "hasFontSize";
     mkWriting "fontWeight" "font-weight" "hasFontWeight";
     mkWriting "color" "color" "hasColor";
     mkWriting "printObject" "print-object" "hasPrintObject";
     mkWriting "printDot" "print-dot" "hasPrintDot";
     mkWriting "printSpacing" "print-spacing" "hasPrintSpacing";
     mkWriting "printLyric" "print-lyric" "hasPrintLyric";
     mkWriting "dynamics" "dynamics" "hasDynamics";
     mkWriting "endDynamics" "end-dynamics" "hasEndDynamics";
     mkWriting "attack" "attack" "hasAttack";
     mkWriting "release" "release" "hasRelease";
     mkWriting "timeOnly" "time-only" "hasTimeOnly";
     mkWriting "pizzicato" "pizzicato" "hasPizzicato"]
    [mkReading "defaultX" "hasDefaultX" "default-x" "TenthsValue";
     mkReading "defaultY" "hasDefaultY" "default-y" "TenthsValue";
     mkReading "relativeX" "hasRelativeX" "relative-x" "TenthsValue";
     mkReading "relativeY" "hasRelativeY" "relative-y" "TenthsValue";
     mkReading "fontFamily" "hasFontFamily" "font-family" "CommaSeparatedText";
     mkReading "fontStyle" "hasFontStyle" "font-style" "FontStyle";
     mkReading "fontSize" "hasFontSize" "font-size" "FontSize";
     mkReading "fontWeight" "hasFontWeight" "font-weight" "FontWeight";
     mkReading "color" "hasColor" "color" "Color";
     mkReading "printObject" "hasPrintObject" "print-object" "YesNo";
     mkReading "printDot" "hasPrintDot" "print-dot" "YesNo";
     mkReading "printSpacing" "hasPrintSpacing" "print-spacing" "YesNo";
     mkReading "printLyric" "hasPrintLyric" "print-lyric" "YesNo";
     mkReading "dynamics" "hasDynamics" "dynamics" "NonNegativeDecimal";
     mkReading "endDynamics" "hasEndDynamics" "end-dynamics" "NonNegativeDecimal";
     mkReading "attack" "hasAttack" "attack" "DivisionsValue";
     mkReading "release" "hasRelease" "release" "DivisionsValue";
     mkReading "timeOnly" "hasTimeOnly" "time-only" "TimeOnly";
     mkReading "pizzicato" "hasPizzicato" "pizzicato" "YesNo"]
    [].

(* core/elements/NoteSizeAttributes.cpp:13-55 *)
Definition noteSizeAttributes : attributeClass :=
  mkAttributeClass "NoteSizeAttributes"
    ["hasType"]
    ["hasType"]
    [mkWriting "type" "type" "hasType"]
    [mkReading "type" "isTypeFound" "type" "NoteSizeType"]
    ["isTypeFound"].

(* core/elements/NoteheadAttributes.cpp:13-78 *)
Definition noteheadAttributes : attributeClass :=
  mkAttributeClass "NoteheadAttributes"
    []
    ["hasFilled"; "hasParentheses"; "hasFontFamily"; "hasFontStyle"; "hasFontSize"; "hasFontWeight"; "hasColor"]
    [mkWriting "filled" "filled" "hasFilled";
     mkWriting "parentheses" "parentheses" "hasParentheses";
     mkWriting "fontFamily" "font-family" "hasFontFamily";
     mkWriting "fontStyle" "font-style" "hasFontStyle";
     mkWriting "fontSize" "font-size" "hasFontSize";
     mkWriting "fontWeight" "font-weight" "hasFontWeight";
     mkWriting "color" "color" "hasColor"]
    [mkReading "filled" "hasFilled" "filled" "YesNo";
     mkReading "parentheses" "hasParentheses" "parentheses" "YesNo";
     mkReading "fontFamily" "hasFontFamily" "font-family" "CommaSeparatedText";
     mkReading "fontStyle" "hasFontStyle" "font-style" "FontStyle";
     mkReading "fontSize" "hasFontSize" "font-size" "FontSize";
     mkReading "fontWeight" "hasFontWeight" "font-weight" "FontWeight";
     mkReading "color" "hasColor" "color" "Color"]
    [].

(* core/elements/OctaveShiftAttributes.cpp:13-115 *)
Definition octaveShiftAttributes : attributeClass :=
  mkAttributeClass "OctaveShiftAttributes"
    ["hasType"]
    ["hasType"; "hasNumber"; "hasSize"; "hasDashLength"; "hasSpaceLength"; "hasDefaultX"; "hasDefaultY"; "hasRelativeX"; "hasRelativeY"; "hasFontFamily"; "hasFontStyle"; "hasFontSize"; "hasFontWeight"]
    [mkWriting "type" "type" "hasType";
     mkWriting "number" "number" "hasNumber";
     mkWriting "size" "size" "hasSize";
     mkWriting "dashLength" "dash-length" "hasDashLength";
     mkWriting "spaceLength" "space-length" "hasSpaceLength";
     mkWriting "defaultX" "default-x" "hasDefaultX";
     mkWriting "defaultY" "default-y" "hasDefaultY";
     mkWriting "relativeX" "relative-x" "hasRelativeX";
     mkWriting "relativeY" "relative-y" "hasRelativeY";
     mkWriting "fontFamily" "font-family" "hasFontFamily";
     mkWriting "fontStyle" "font-style" "hasFontStyle";
     mkWriting "fontSize" "font-size" "hasFontSize";
     mkWriting "fontWeight" "font-weight" "hasFontWeight"]
    [mkReading "type" "isTypeFound" "type" "UpDownStopContinue";
     mkReading "number" "hasNumber" "number" "NumberLevel";
     mkReading "size" "hasSize" "size" "PositiveInteger";
     mkReading "dashLength" "hasDashLength" "dash-length" "TenthsValue";
     mkReading "spaceLength" "hasSpaceLength" "space-length" "TenthsValue";
     mkReading "defaultX" "hasDefaultX" "default-x" "TenthsValue";
     mkReading "defaultY" "hasDefaultY" "default-y" "TenthsValue";
     mkReading "relativeX" "hasRelativeX" "relative-x" "TenthsValue";
     mkReading "relativeY" "hasRelativeY" "relative-y" "TenthsValue";
     mkReading "fontFamily" "hasFontFamily" "font-family" "CommaSeparatedText";
     mkReading "fontStyle" "hasFontStyle" "font-style" "FontStyle";
     mkReading "fontSize" "hasFontSize" "font-size" "FontSize";
     mkReading "fontWeight" "hasFontWeight" "font-weight" "FontWeight"]
    ["isTypeFound"].

(* core/elements/OffsetAttributes.cpp:13-49 *)
Definition offsetAttributes : attributeClass :=
  mkAttributeClass "OffsetAttributes"
    []
    ["hasSound"]
    [mkWriting "sound" "sound" "hasSound"]
    [mkReading "sound" "hasSound" "sound" "YesNo"]
    [].

(* core/elements/OpusAttributes.cpp:13-86 *)
Definition opusAttributes : attributeClass :=
  mkAttributeClass "OpusAttributes"
    ["hasHref"]
    ["hasHref"; "hasType"; "hasRole"; "hasTitle"; "hasShow"; "hasActuate"]
    [mkWriting "href" "xlink:href" "hasHref";
     mkWriting "type" "xlink:type" "hasType";
     mkWriting "role" "xlink:role" "hasRole";
     mkWriting "title" "xlink:title" "hasTitle";
     mkWriting "show" "xlink:show" "hasShow";
     mkWriting "actuate" "xlink:actuate" "hasActuate"]
    [mkReading "href" "isHrefFound" "href" "XlinkHref";
     mkReading "role" "hasRole" "role" "XlinkRole";
     mkReading "title" "hasTitle" "title" "XlinkTitle";
     mkReading "show" "hasShow" "show" "XlinkShow";
     mkReading "actuate" "hasActuate" "actuate" "XlinkActuate"]
    ["isHrefFound"].

(* core/elements/OtherAppearanceAttributes.cpp:13-55 *)
Definition otherAppearanceAttributes : attributeClass :=
  mkAttributeClass "OtherAppearanceAttributes"
    ["hasType"]
    ["hasType"]
    [mkWriting "type" "type" "hasType"]
    [mkReading "type" "isTypeFound" "type" "XsToken"]
    ["isTypeFound"].

(* core/elements/OtherArticulationAttributes.cpp:13-89 *)
Definition otherArticulationAttributes : attributeClass :=
  mkAttributeClass "OtherArticulationAttributes"
    []
    ["hasDefaultX"; "hasDefaultY"; "hasRelativeX"; "hasRelativeY"; "hasFontFamily"; "hasFontStyle"; "hasFontSize"; "hasFontWeight"; "hasPlacement"]
    [mkWriting "defaultX" "default-x" "hasDefaultX";
     mkWriting "defaultY" "default-y" "hasDefaultY";
     mkWriting "relativeX" "relative-x" "hasRelativeX";
     mkWriting "relativeY" "relative-y" "hasRelativeY";
     mkWriting "fontFamily" "font-family" "hasFontFamily";
     mkWriting "fontStyle" "font-style" "hasFontStyle";
     mkWriting "fontSize" "font-size" "hasFontSize";
     mkWriting "fontWeight" "font-weight" "hasFontWeight";
     mkWriting "placement" "placement" "hasPlacement"]
    [mkReading "defaultX" "hasDefaultX" "default-x" "TenthsValue";
     mkReading "defaultY" "hasDefaultY" "default-y" "TenthsValue";
     mkReading "relativeX" "hasRelativeX" "relative-x" "TenthsValue";
     mkReading "relativeY" "hasRelativeY" "relative-y" "TenthsValue";
     mkReading "fontFamily" "hasFontFamily" "font-family" "CommaSeparatedText";
     mkReading "fontStyle" "hasFontStyle" "font-style" "FontStyle";
     mkReading "fontSize" "hasFontSize" "font-size" "FontSize";
     mkReading "fontWeight" "hasFontWeight" "font-weight" "FontWeight";
     mkReading "placement" "hasPlacement" "placement" "AboveBelow"]
    [].

(* core/elements/OtherDirectionAttributes.cpp:13-94 *)
Definition otherDirectionAttributes : attributeClass :=
  mkAttributeClass "OtherDirectionAttributes"
    []
    ["hasPrintObject"; "hasDefaultX"; "hasDefaultY"; "hasRelativeX"; "hasRelativeY"; "hasFontFamily"; "hasFontStyle"; "hasFontSize"; "hasFontWeight"; "hasHalign"]
    [mkWriting "printObject" "print-object" "hasPrintObject";
     mkWriting "defaultX" "default-x" "hasDefaultX";
     mkWriting "defaultY" "default-y" "hasDefaultY";
     mkWriting "relativeX" "relative-x" "hasRelativeX";
     mkWriting "relativeY" "relative-y" "hasRelativeY";
     mkWriting "fontFamily" "font-family" "hasFontFamily";
     mkWriting "fontStyle" "font-style" "hasFontStyle";
     mkWriting "fontSize" "font-size" "hasFontSize";
     mkWriting "fontWeight" "font-weight" "hasFontWeight";
     mkWriting "halign" "halign" "hasHalign"]
    [mkReading "printObject" "hasPrintObject" "print-object" "YesNo";
     mkReading "defaultX" "hasDefaultX" "default-x" "TenthsValue";
     mkReading "defaultY" "hasDefaultY" "default-y" "TenthsValue";
     mkReading "relativeX" "hasRelativeX" "relative-x" "TenthsValue";
     mkReading "relativeY" "hasRelativeY" "relative-y" "TenthsValue";
     mkReading "fontFamily" "hasFontFamily" "font-family" "CommaSeparatedText";
     mkReading "fontStyle" "hasFontStyle" "font-style" "FontStyle";
     mkReading "fontSize" "hasFontSize" "font-size" "FontSize";
     mkReading "fontWeight" "hasFontWeight" "font-weight" "FontWeight";
     mkReading "halign" "hasHalign" "halign" "LeftCenterRight"]
    [].

(* core/elements/OtherNotationAttributes.cpp:13-110 *)
Definition otherNotationAttributes : attributeClass :=
  mkAttributeClass "OtherNotationAttributes"
    ["hasType"]
    ["hasType"; "hasNumber"; "hasPrintObject"; "hasDefaultX"; "hasDefaultY"; "hasRelativeX"; "hasRelativeY"; "hasFontFamily"; "hasFontStyle"; "hasFontSize"; "hasFontWeight"; "hasPlacement"]
    [mkWriting "type" "type" "hasType";
     mkWriting "number" "number" "hasNumber";
     mkWriting "printObject" "print-object" "hasPrintObject";
     mkWriting "defaultX" "default-x" "hasDefaultX";
     mkWriting "defaultY" "default-y" "hasDefaultY";
     mkWriting "relativeX" "relative-x" "hasRelativeX";
     mkWriting "relativeY" "relative-y" "hasRelativeY";
     mkWriting "fontFamily" "font-family" "hasFontFamily";
     mkWriting "fontStyle" "font-style" "hasFontStyle";
     mkWriting "fontSize" "font-size" "hasFontSize";
     mkWriting "fontWeight" "font-weight" "hasFontWeight";
     mkWriting "placement" "placement" "hasPlacement"]
    [mkReading "type" "isTypeFound" "type" "StartStopSingle";
     mkReading "number" "hasNumber" "number" "NumberLevel";
     mkReading "printObject" "hasPrintObject" "print-object" "YesNo";
     mkReading "defaultX" "hasDefaultX" "default-x" "TenthsValue";
     mkReading "defaultY" "hasDefaultY" "default-y" "TenthsValue";
     mkReading "relativeX" "hasRelativeX" "relative-x" "TenthsValue";
     mkReading "relativeY" "hasRelativeY" "relative-y" "TenthsValue";
     mkReading "fontFamily" "hasFontFamily" "font-family" "CommaSeparatedText";
     mkReading "fontStyle" "hasFontStyle" "font-style" "FontStyle";
     mkReading "fontSize" "hasFontSize" "font-size" "FontSize";
     mkReading "fontWeight" "hasFontWeight" "font-weight" "FontWeight";
     mkReading "placement" "hasPlacement" "placement" "AboveBelow"]
    ["isTypeFound"].

(* core/elements/OtherOrnamentAttributes.cpp:13-89 *)
Definition otherOrnamentAttributes : attributeClass :=
  mkAttributeClass "OtherOrnamentAttributes"
    []
    ["hasDefaultX"; "hasDefaultY"; "hasRelativeX"; "hasRelativeY"; "hasFontFamily"; "hasFontStyle"; "hasFontSize"; "hasFontWeight"; "hasPlacement"]
    [mkWriting "defaultX" "default-x" "hasDefaultX";
     mkWriting "defaultY" "default-y" "hasDefaultY";
     mkWriting "relativeX" "relative-x" "hasRelativeX";
     mkWriting "relativeY" "relative-y" "hasRelativeY";
     mkWriting "fontFamily" "font-family" "hasFontFamily";
     mkWriting "fontStyle" "font-style" "hasFontStyle";
     mkWriting "fontSize" "font-size" "hasFontSize";
     mkWriting "fontWeight" "font-weight" "hasFontWeight";
     mkWriting "placement" "placement" "hasPlacement"]
    [mkReading "defaultX" "hasDefaultX" "default-x" "TenthsValue";
     mkReading "defaultY" "hasDefaultY" "default-y" "TenthsValue";
     mkReading "relativeX" "hasRelativeX" "relative-x" "TenthsValue";
     mkReading "relativeY" "hasRelativeY" "relative-y" "TenthsValue";
     mkReading "fontFamily" "hasFontFamily" "font-family" "CommaSeparatedText";
     mkReading "fontStyle" "hasFontStyle" "font-style" "FontStyle";
     mkReading "fontSize" "hasFontSize" "font-size" "FontSize";
     mkReading "fontWeight" "hasFontWeight" "font-weight" "FontWeight";
     mkReading "placement" "hasPlacement" "placement" "AboveBelow"]
    [].

(* core/elements/OtherPlayAttributes.cpp:13-55 *)
Definition otherPlayAttributes : attributeClass :=
  mkAttributeClass "OtherPlayAttributes"
    ["hasType"]
    ["hasType"]
    [mkWriting "type" "type" "hasType"]
    [mkReading "type" "isTypeFound" "type" "XsToken"]
    ["isTypeFound"].

(* core/elements/OtherTechnicalAttributes.cpp:13-89 *)
Definition otherTechnicalAttributes : attributeClass :=
  mkAttributeClass "OtherTechnicalAttributes"
    []
    ["hasDefaultX"; "hasDefaultY"; "hasRelativeX"; "hasRelativeY"; "hasFontFamily"; "hasFontStyle"; "hasFontSize"; "hasFontWeight"; "hasPlacement"]
    [mkWriting "defaultX" "default-x" "hasDefaultX";
     mkWriting "defaultY" "default-y" "hasDefaultY";
     mkWriting "relativeX" "relative-x" "hasRelativeX";
     mkWriting "relativeY" "relative-y" "hasRelativeY";
     mkWriting "fontFamily" "font-family" "hasFontFamily";
     mkWriting "fontStyle" "font-style" "hasFontStyle";
     mkWriting "fontSize" "font-size" "hasFontSize";
     mkWriting "fontWeight" "font-weight" "hasFontWeight";
     mkWriting "placement" "placement" "hasPlacement"]
    [mkReading "defaultX" "hasDefaultX" "default-x" "TenthsValue";
     mkReading "defaultY" "hasDefaultY" "default-y" "TenthsValue";
     mkReading "relativeX" "hasRelativeX" "relative-x" "TenthsValue";
     mkReading "relativeY" "hasRelativeY" "relative-y" "TenthsValue";
     mkReading "fontFamily" "hasFontFamily" "font-family" "CommaSeparatedText";
     mkReading "fontStyle" "hasFontStyle" "font-style" "FontStyle";
     mkReading "fontSize" "hasFontSize" "font-size" "FontSize";
     mkReading "fontWeight" "hasFontWeight" "font-weight" "FontWeight";
     mkReading "placement" "hasPlacement" "placement" "AboveBelow"]
    [].

(* core/elements/PageMarginsAttributes.cpp:13-49 *)
Definition pageMarginsAttributes : attributeClass :=
  mkAttributeClass "PageMarginsAttributes"
    []
    ["hasType"]
    [mkWriting "type" "type" "hasType"]
    [mkReading "type" "hasType" "type" "MarginType"]
    [].

(* core/elements/PartAbbreviationAttributes.cpp:13-94 *)
Definition partAbbreviationAttributes : attributeClass :=
  mkAttributeClass "PartAbbreviationAttributes"
    []
    ["hasDefaultX"; "hasDefaultY"; "hasRelativeX"; "hasRelativeY"; "hasFontFamily"; "hasFontStyle"; "hasFontSize"; "hasFontWeight"; "hasPrintObject"; "hasJustify"]
    [mkWriting "defaultX" "default-x" "hasDefaultX";
     mkWriting "defaultY" "default-y" "hasDefaultY";
     mkWriting "relativeX" "relative-x" "hasRelativeX";
     mkWriting "relativeY" "relative-y" "hasRelativeY";
     mkWriting "fontFamily" "font-family" "hasFontFamily";
     mkWriting "fontStyle" "font-style" "hasFontStyle";
     mkWriting "fontSize" "font-size" "hasFontSize";
     mkWriting "fontWeight" "font-weight" "hasFontWeight";
     mkWriting "printObject" "print-object" "hasPrintObject";
     mkWriting "justify" "justify" "hasJustify"]
    [mkReading "defaultX" "hasDefaultX" "default-x" "TenthsValue";
     mkReading "defaultY" "hasDefaultY" "default-y" "TenthsValue";
     mkReading "relativeX" "hasRelativeX" "relative-x" "TenthsValue";
     mkReading "relativeY" "hasRelativeY" "relative-y" "TenthsValue";
     mkReading "fontFamily" "hasFontFamily" "font-family" "CommaSeparatedText";
     mkReading "fontStyle" "hasFontStyle" "font-style" "FontStyle";
     mkReading "fontSize" "hasFontSize" "font-size" "FontSize";
     mkReading "fontWeight" "hasFontWeight" "font-weight" "FontWeight";
     mkReading "printObject" "hasPrintObject" "print-object" "YesNo";
     mkReading "justify" "hasJustify" "justify" "LeftCenterRight"]
    [].

(* core/elements/PartAbbreviationDisplayAttributes.cpp:13-49 *)
Definition partAbbreviationDisplayAttributes : attributeClass :=
  mkAttributeClass "PartAbbreviationDisplayAttributes"
    []
    ["hasPrintObject"]
    [mkWriting "printObject" "print-object" "hasPrintObject"]
    [mkReading "printObject" "hasPrintObject" "print-object" "YesNo"]
    [].

(* core/elements/PartAttributes.cpp:13-55 *)
Definition partAttributes : attributeClass :=
  mkAttributeClass "PartAttributes"
    ["hasId"]
    ["hasId"]
    [mkWriting "id" "id" "hasId"]
    [mkReading "id" "isIdFound" "id" "XsIDREF"]
    ["isIdFound"].

(* core/elements/PartGroupAttributes.cpp:13-60 *)
Definition partGroupAttributes : attributeClass :=
  mkAttributeClass "PartGroupAttributes"
    ["hasType"]
    ["hasType"; "hasNumber"]
    [mkWriting "type" "type" "hasType";
     mkWriting "number" "number" "hasNumber"]
    [mkReading "type" "isTypeFound" "type" "StartStop";
     mkReading "number" "hasNumber" "number" "XsToken"]
    ["isTypeFound"].

(* core/elements/PartNameAttributes.cpp:13-99 *)
Definition partNameAttributes : attributeClass :=
  mkAttributeClass "PartNameAttributes"
    []
    ["hasDefaultX"; "hasDefaultY"; "hasRelativeX"; "hasRelativeY"; "hasFontFamily"; "hasFontStyle"; "hasFontSize"; "hasFontWeight"; "hasColor"; "hasPrintObject"; "hasJustify"]
    [mkWriting "defaultX" "default-x" "hasDefaultX";
     mkWriting "defaultY" "default-y" "hasDefaultY";
     mkWriting "relativeX" "relative-x" "hasRelativeX";
     mkWriting "relativeY" "relative-y" "hasRelativeY";
     mkWriting "fontFamily" "font-family" "hasFontFamily";
     mkWriting "fontStyle" "font-style" "hasFontStyle";
     mkWriting "fontSize" "font-size" "hasFontSize";
     mkWriting "fontWeight" "font-weight" "hasFontWeight";
     mkWriting "color" "color" "hasColor";
     mkWriting "printObject" "print-object" "hasPrintObject";
     mkWriting "justify" "justify" "hasJustify"]
    [mkReading "defaultX" "hasDefaultX" "default-x" "TenthsValue";
     mkReading "defaultY" "hasDefaultY" "default-y" "TenthsValue";
     mkReading "relativeX" "hasRelativeX" "relative-x" "TenthsValue";
     mkReading "relativeY" "hasRelativeY" "relative-y" "TenthsValue";
     mkReading "fontFamily" "hasFontFamily" "font-family" "CommaSeparatedText";
     mkReading "fontStyle" "hasFontStyle" "font-style" "FontStyle";
     mkReading "fontSize" "hasFontSize" "font-size" "FontSize";
     mkReading "fontWeight" "hasFontWeight" "font-weight" "FontWeight";
     mkReading "color" "hasColor" "color" "Color";
     mkReading "printObject" "hasPrintObject" "print-object" "YesNo";
     mkReading "justify" "hasJustify" "justify" "LeftCenterRight"]
    [].

(* core/elements/PartNameDisplayAttributes.cpp:13-49 *)
Definition partNameDisplayAttributes : attributeClass :=
  mkAttributeClass "PartNameDisplayAttributes"
    []
    ["hasPrintObject"]
    [mkWriting "printObject" "print-object" "hasPrintObject"]
    [mkReading "printObject" "hasPrintObject" "print-object" "YesNo"]
    [].

(* core/elements/PartSymbolAttributes.cpp:13-74 *)
Definition partSymbolAttributes : attributeClass :=
  mkAttributeClass "PartSymbolAttributes"
    []
    ["hasTopStaff"; "hasBottomStaff"; "hasDefaultX"; "hasDefaultY"; "hasRelativeX"; "hasRelativeY"]
    [mkWriting "topStaff" "top-staff" "hasTopStaff";
     mkWriting "bottomStaff" "bottom-staff" "hasBottomStaff";
     mkWriting "defaultX" "default-x" "hasDefaultX";
     mkWriting "defaultY" "default-y" "hasDefaultY";
     mkWriting "relativeX" "relative-x" "hasRelativeX";
     mkWriting "relativeY" "relative-y" "hasRelativeY"]
    [mkReading "topStaff" "hasTopStaff" "top-staff" "StaffNumber";
     mkReading "bottomStaff" "hasBottomStaff" "bottom-staff" "StaffNumber";
     mkReading "defaultX" "hasDefaultX" "default-x" "TenthsValue";
     mkReading "defaultY" "hasDefaultY" "default-y" "TenthsValue";
     mkReading "relativeX" "hasRelativeX" "relative-x" "TenthsValue";
     mkReading "relativeY" "hasRelativeY" "relative-y" "TenthsValue"]
    [].

(* core/elements/PedalAttributes.cpp:13-110 *)
Definition pedalAttributes : attributeClass :=
  mkAttributeClass "PedalAttributes"
    ["hasType"]
    ["hasType"; "hasLine"; "hasSign"; "hasDefaultX"; "hasDefaultY"; "hasRelativeX"; "hasRelativeY"; "hasFontFamily"; "hasFontStyle"; "hasFontSize"; "hasFontWeight"; "hasHalign"]
    [mkWriting "type" "type" "hasType";
     mkWriting "line" "line" "hasLine";
     mkWriting "sign" "sign" "hasSign";
     mkWriting "defaultX" "default-x" "hasDefaultX";
     mkWriting "defaultY" "default-y" "hasDefaultY";
     mkWriting "relativeX" "relative-x" "hasRelativeX";
     mkWriting "relativeY" "relative-y" "hasRelativeY";
     mkWriting "fontFamily" "font-family" "hasFontFamily";
     mkWriting "fontStyle" "font-style" "hasFontStyle";
     mkWriting "fontSize" "font-size" "hasFontSize";
     mkWriting "fontWeight" "font-weight" "hasFontWeight";
     mkWriting "halign" "halign" "hasHalign"]
    [mkReading "type" "isTypeFound" "type" "StartStopChangeContinue";
     mkReading "line" "hasLine" "line" "YesNo";
     mkReading "sign" "hasSign" "sign" "YesNo";
     mkReading "defaultX" "hasDefaultX" "default-x" "TenthsValue";
     mkReading "defaultY" "hasDefaultY" "default-y" "TenthsValue";
     mkReading "relativeX" "hasRelativeX" "relative-x" "TenthsValue";
     mkReading "relativeY" "hasRelativeY" "relative-y" "TenthsValue";
     mkReading "fontFamily" "hasFontFamily" "font-family" "CommaSeparatedText";
     mkReading "fontStyle" "hasFontStyle" "font-style" "FontStyle";
     mkReading "fontSize" "hasFontSize" "font-size" "FontSize";
     mkReading "fontWeight" "hasFontWeight" "font-weight" "FontWeight";
     mkReading "halign" "hasHalign" "halign" "LeftCenterRight"]
    ["isTypeFound"].

(* core/elements/PerMinuteAttributes.cpp:13-64 *)
Definition perMinuteAttributes : attributeClass :=
  mkAttributeClass "PerMinuteAttributes"
    []
    ["hasFontFamily"; "hasFontStyle"; "hasFontSize"; "hasFontWeight"]
    [mkWriting "fontFamily" "font-family" "hasFontFamily";
     mkWriting "fontStyle" "font-style" "hasFontStyle";
     mkWriting "fontSize" "font-size" "hasFontSize";
     mkWriting "fontWeight" "font-weight" "hasFontWeight"]
    [mkReading "fontFamily" "hasFontFamily" "font-family" "CommaSeparatedText";
     mkReading "fontStyle" "hasFontStyle" "font-style" "FontStyle";
     mkReading "fontSize" "hasFontSize" "font-size" "FontSize";
     mkReading "fontWeight" "hasFontWeight" "font-weight" "FontWeight"]
    [].

(* core/elements/PercussionAttributes.cpp:13-104 *)
Definition percussionAttributes : attributeClass :=
  mkAttributeClass "PercussionAttributes"
    []
    ["hasDefaultX"; "hasDefaultY"; "hasRelativeX"; "hasRelativeY"; "hasFontFamily"; "hasFontStyle"; "hasFontSize"; "hasFontWeight"; "hasColor"; "hasHalign"; "hasValign"; "hasEnclosure"]
    [mkWriting "defaultX" "default-x" "hasDefaultX";
     mkWriting "defaultY" "default-y" "hasDefaultY";
     mkWriting "relativeX" "relative-x" "hasRelativeX";
     mkWriting "relativeY" "relative-y" "hasRelativeY";
     mkWriting "fontFamily" "font-family" "hasFontFamily";
     mkWriting "fontStyle" "font-style" "hasFontStyle";
     mkWriting "fontSize" "font-size" "hasFontSize";
     mkWriting "fontWeight" "font-weight" "hasFontWeight";
     mkWriting "color" "color" "hasColor";
     mkWriting "halign" "halign" "hasHalign";
     mkWriting "valign" "valign" "hasValign";
     mkWriting "enclosure" "enclosure" "hasEnclosure"]
    [mkReading "defaultX" "hasDefaultX" "default-x" "TenthsValue";
     mkReading "defaultY" "hasDefaultY" "default-y" "TenthsValue";
     mkReading "relativeX" "hasRelativeX" "relative-x" "TenthsValue";
     mkReading "relativeY" "hasRelativeY" "relative-y" "TenthsValue";
     mkReading "fontFamily" "hasFontFamily" "font-family" "CommaSeparatedText";
     mkReading "fontStyle" "hasFontStyle" "font-style" "FontStyle";
     mkReading "fontSize" "hasFontSize" "font-size" "FontSize";
     mkReading "fontWeight" "hasFontWeight" "font-weight" "FontWeight";
     mkReading "color" "hasColor" "color" "Color";
     mkReading "halign" "hasHalign" "halign" "LeftCenterRight";
     mkReading "valign" "hasValign" "valign" "Valign";
     mkReading "enclosure" "hasEnclosure" "enclosure" "EnclosureShape"]
    [].

(* core/elements/PlayAttributes.cpp:13-49 *)
Definition playAttributes : attributeClass :=
  mkAttributeClass "PlayAttributes"
    []
    ["hasId"]
    [mkWriting "id" "id" "hasId"]
    [mkReading "id" "hasId" "id" "XsIDREF"]
    [].

(* core/elements/PluckAttributes.cpp:13-89 *)
Definition pluckAttributes : attributeClass :=
  mkAttributeClass "PluckAttributes"
    []
    ["hasDefaultX"; "hasDefaultY"; "hasRelativeX"; "hasRelativeY"; "hasFontFamily"; "hasFontStyle"; "hasFontSize"; "hasFontWeight"; "hasPlacement"]
    [mkWriting "defaultX" "default-x" "hasDefaultX";
     mkWriting "defaultY" "default-y" "hasDefaultY";
     mkWriting "relativeX" "relative-x" "hasRelativeX";
     mkWriting "relativeY" "relative-y" "hasRelativeY";
     mkWriting "fontFamily" "font-family" "hasFontFamily";
     mkWriting "fontStyle" "font-style" "hasFontStyle";
     mkWriting "fontSize" "font-size" "hasFontSize";
     mkWriting "fontWeight" "font-weight" "hasFontWeight";
     mkWriting "placement" "placement" "hasPlacement"]
    [mkReading "defaultX" "hasDefaultX" "default-x" "TenthsValue";
     mkReading "defaultY" "hasDefaultY" "default-y" "TenthsValue";
     mkReading "relativeX" "hasRelativeX" "relative-x" "TenthsValue";
     mkReading "relativeY" "hasRelativeY" "relative-y" "TenthsValue";
     mkReading "fontFamily" "hasFontFamily" "font-family" "CommaSeparatedText";
     mkReading "fontStyle" "hasFontStyle" "font-style" "FontStyle";
     mkReading "fontSize" "hasFontSize" "font-size" "FontSize";
     mkReading "fontWeight" "hasFontWeight" "font-weight" "FontWeight";
     mkReading "placement" "hasPlacement" "placement" "AboveBelow"]
    [].

(* core/elements/PrefixAttributes.cpp:13-84 *)
Definition prefixAttributes : attributeClass :=
  mkAttributeClass "PrefixAttributes"
    []
    ["hasDefaultX"; "hasDefaultY"; "hasRelativeX"; "hasRelativeY"; "hasFontFamily"; "hasFontStyle"; "hasFontSize"; "hasFontWeight"]
    [mkWriting "defaultX" "default-x" "hasDefaultX";
     mkWriting "defaultY" "default-y" "hasDefaultY";
     mkWriting "relativeX" "relative-x" "hasRelativeX";
     mkWriting "relativeY" "relative-y" "hasRelativeY";
     mkWriting "fontFamily" "font-family" "hasFontFamily";
     mkWriting "fontStyle" "font-style" "hasFontStyle";
     mkWriting "fontSize" "font-size" "hasFontSize";
     mkWriting "fontWeight" "font-weight" "hasFontWeight"]
    [mkReading "defaultX" "hasDefaultX" "default-x" "TenthsValue";
     mkReading "defaultY" "hasDefaultY" "default-y" "TenthsValue";
     mkReading "relativeX" "hasRelativeX" "relative-x" "TenthsValue";
     mkReading "relativeY" "hasRelativeY" "relative-y" "TenthsValue";
     mkReading "fontFamily" "hasFontFamily" "font-family" "CommaSeparatedText";
     mkReading "fontStyle" "hasFontStyle" "font-style" "FontStyle";
     mkReading "fontSize" "hasFontSize" "font-size" "FontSize";
     mkReading "fontWeight" "hasFontWeight" "font-weight" "FontWeight"]
    [].

(* core/elements/PrincipalVoiceAttributes.cpp:13-111 *)
Definition principalVoiceAttributes : attributeClass :=
  mkAttributeClass "PrincipalVoiceAttributes"
    ["hasType"; "hasSymbol"]
    ["hasType"; "hasSymbol"; "hasDefaultX"; "hasDefaultY"; "hasRelativeX"; "hasRelativeY"; "hasFontFamily"; "hasFontStyle"; "hasFontSize"; "hasFontWeight"; "hasHalign"]
    [mkWriting "type" "type" "hasType";
     mkWriting "symbol" "symbol" "hasSymbol";
     mkWriting "defaultX" "default-x" "hasDefaultX";
     mkWriting "defaultY" "default-y" "hasDefaultY";
     mkWriting "relativeX" "relative-x" "hasRelativeX";
     mkWriting "relativeY" "relative-y" "hasRelativeY";
     mkWriting "fontFamily" "font-family" "hasFontFamily";
     mkWriting "fontStyle" "font-style" "hasFontStyle";
     mkWriting "fontSize" "font-size" "hasFontSize";
     mkWriting "fontWeight" "font-weight" "hasFontWeight";
     mkWriting "halign" "halign" "hasHalign"]
    [mkReading "type" "isTypeFound" "type" "StartStop";
     mkReading "symbol" "isSymbolFound" "symbol" "PrincipalVoiceSymbol";
     mkReading "defaultX" "hasDefaultX" "default-x" "TenthsValue";
     mkReading "defaultY" "hasDefaultY" "default-y" "TenthsValue";
     mkReading "relativeX" "hasRelativeX" "relative-x" "TenthsValue";
     mkReading "relativeY" "hasRelativeY" "relative-y" "TenthsValue";
     mkReading "fontFamily" "hasFontFamily" "font-family" "CommaSeparatedText";
     mkReading "fontStyle" "hasFontStyle" "font-style" "FontStyle";
     mkReading "fontSize" "hasFontSize" "font-size" "FontSize";
     mkReading "fontWeight" "hasFontWeight" "font-weight" "FontWeight";
     mkReading "halign" "hasHalign" "halign" "LeftCenterRight"]
    ["isTypeFound"; "isSymbolFound"].

(* core/elements/PrintAttributes.cpp:13-69 *)
Definition printAttributes : attributeClass :=
  mkAttributeClass "PrintAttributes"
    []
    ["hasStaffSpacing"; "hasNewSystem"; "hasNewPage"; "hasBlankPage"; "hasPageNumber"]
    [mkWriting "staffSpacing" "staff-spacing" "hasStaffSpacing";
     mkWriting "newSystem" "new-system" "hasNewSystem";
     mkWriting "newPage" "new-page" "hasNewPage";
     mkWriting "blankPage" "blank-page" "hasBlankPage";
     mkWriting "pageNumber" "page-number" "hasPageNumber"]
    [mkReading "staffSpacing" "hasStaffSpacing" "staff-spacing" "TenthsValue";
     mkReading "newSystem" "hasNewSystem" "new-system" "YesNo";
     mkReading "newPage" "hasNewPage" "new-page" "YesNo";
     mkReading "blankPage" "hasBlankPage" "blank-page" "PositiveInteger";
     mkReading "pageNumber" "hasPageNumber" "page-number" "XsToken"]
    [].

(* core/elements/PullOffAttributes.cpp:13-105 *)
Definition pullOffAttributes : attributeClass :=
  mkAttributeClass "PullOffAttributes"
    ["hasType"]
    ["hasType"; "hasNumber"; "hasDefaultX"; "hasDefaultY"; "hasRelativeX"; "hasRelativeY"; "hasFontFamily"; "hasFontStyle"; "hasFontSize"; "hasFontWeight"; "hasPlacement"]
    [mkWriting "type" "type" "hasType";
     mkWriting "number" "number" "hasNumber";
     mkWriting "defaultX" "default-x" "hasDefaultX";
     mkWriting "defaultY" "default-y" "hasDefaultY";
     mkWriting "relativeX" "relative-x" "hasRelativeX";
     mkWriting "relativeY" "relative-y" "hasRelativeY";
     mkWriting "fontFamily" "font-family" "hasFontFamily";
     mkWriting "fontStyle" "font-style" "hasFontStyle";
     mkWriting "fontSize" "font-size" "hasFontSize";
     mkWriting "fontWeight" "font-weight" "hasFontWeight";
     mkWriting "placement" "placement" "hasPlacement"]
    [mkReading "type" "isTypeFound" "type" "StartStop";
     mkReading "number" "hasNumber" "number" "NumberLevel";
     mkReading "defaultX" "hasDefaultX" "default-x" "TenthsValue";
     mkReading "defaultY" "hasDefaultY" "default-y" "TenthsValue";
     mkReading "relativeX" "hasRelativeX" "relative-x" "TenthsValue";
     mkReading "relativeY" "hasRelativeY" "relative-y" "TenthsValue";
     mkReading "fontFamily" "hasFontFamily" "font-family" "CommaSeparatedText";
     mkReading "fontStyle" "hasFontStyle" "font-style" "FontStyle";
     mkReading "fontSize" "hasFontSize" "font-size" "FontSize";
     mkReading "fontWeight" "hasFontWeight" "font-weight" "FontWeight";
     mkReading "placement" "hasPlacement" "placement" "AboveBelow"]
    ["isTypeFound"].

(* core/elements/RehearsalAttributes.cpp:13-141 *)
Definition rehearsalAttributes : attributeClass :=
  mkAttributeClass "RehearsalAttributes"
    []
    ["hasJustify"; "hasDefaultX"; "hasDefaultY"; "hasRelativeX"; "hasRelativeY"; "hasFontFamily"; "hasFontStyle"; "hasFontSize"; "hasFontWeight"; "hasHalign"; "hasUnderline"; "hasOverline"; "hasLineThrough"; "hasRotation"; "hasLetterSpacing"; "hasLineHeight"; "hasLang"; "hasSpace"; "hasEnclosure"]
    [mkWriting "justify" "justify" "hasJustify";
     mkWriting "defaultX" "default-x" "hasDefaultX";
     mkWriting "defaultY" "default-y" "hasDefaultY";
     mkWriting "relativeX" "relative-x" "hasRelativeX";
     mkWriting "relativeY" "relative-y" "hasRelativeY";
     mkWriting "fontFamily" "font-family" "hasFontFamily";
     mkWriting "fontStyle" "font-style" "hasFontStyle";
     mkWriting "fontSize" "font-size" "hasFontSize";
     mkWriting "fontWeight" "font-weight" "hasFontWeight";
     mkWriting "halign" "halign" "hasHalign";
     mkWriting "underline" "underline" "hasUnderline";
     mkWriting "overline" "overline" "hasOverline";
     mkWriting "lineThrough" "line-through" "hasLineThrough";
     mkWriting "rotation" "rotation" "hasRotation";
     mkWriting "letterSpacing" "letter-spacing" "hasLetterSpacing";
     mkWriting "lineHeight" "line-height" "hasLineHeight";
     mkWriting "lang" "xml:lang" "hasLang";
     mkWriting "space" "xml:space" "hasSpace";
     mkWriting "enclosure" "enclosure" "hasEnclosure"]
    [mkReading "justify" "hasJustify" "justify" "LeftCenterRight";
     mkReading "defaultX" "hasDefaultX" "default-x" "TenthsValue";
     mkReading "defaultY" "hasDefaultY" "default-y" "TenthsValue";
     mkReading "relativeX" "hasRelativeX" "relative-x" "TenthsValue";
     mkReading "relativeY" "hasRelativeY" "relative-y" "TenthsValue";
     mkReading "fontFamily" "hasFontFamily" "font-family" "CommaSeparatedText";
     mkReading "fontStyle" "hasFontStyle" "font-style" "FontStyle";
     mkReading "fontSize" "hasFontSize" "font-size" "FontSize";
     mkReading "fontWeight" "hasFontWeight" "font-weight" "FontWeight";
     mkReading "halign" "hasHalign" "halign" "LeftCenterRight";
     mkReading "underline" "hasUnderline" "underline" "NumberOfLines";
     mkReading "overline" "hasOverline" "overline" "NumberOfLines";
     mkReading "lineThrough" "hasLineThrough" "line-through" "NumberOfLines";
     mkReading "rotation" "hasRotation" "rotation" "RotationDegrees";
     mkReading "letterSpacing" "hasLetterSpacing" "letter-spacing" "NumberOrNormal";
     mkReading "lineHeight" "hasLineHeight" "line-height" "NumberOrNormal";
     mkReading "lang" "hasLang" "lang" "XmlLang";
     mkReading "lang" "hasLang" "xml:lang" "XmlLang";
     mkReading "space" "hasSpace" "space" "XmlSpace";
     mkReading "space" "hasSpace" "xml:space" "XmlSpace";
     mkReading "enclosure" "hasEnclosure" "enclosure" "EnclosureShape"]
    [].

(* core/elements/RelationAttributes.cpp:13-49 *)
Definition relationAttributes : attributeClass :=
  mkAttributeClass "RelationAttributes"
    []
    ["hasType"]
    [mkWriting "type" "type" "hasType"]
    [mkReading "type" "hasType" "type" "XsToken"]
    [].

(* core/elements/RepeatAttributes.cpp:13-65 *)
Definition repeatAttributes : attributeClass :=
  mkAttributeClass "RepeatAttributes"
    ["hasDirection"]
    ["hasDirection"; "hasTimes"; "hasWinged"]
    [mkWriting "direction" "direction" "hasDirection";
     mkWriting "times" "times" "hasTimes";
     mkWriting "winged" "winged" "hasWinged"]
    [mkReading "direction" "isDirectionFound" "direction" "BackwardForward";
     mkReading "times" "hasTimes" "times" "NonNegativeInteger";
     mkReading "winged" "hasWinged" "winged" "Winged"]
    ["isDirectionFound"].

(* core/elements/RestAttributes.cpp:13-49 *)
Definition restAttributes : attributeClass :=
  mkAttributeClass "RestAttributes"
    []
    ["hasMeasure"]
    [mkWriting "measure" "measure" "hasMeasure"]
    [mkReading "measure" "hasMeasure" "measure" "YesNo"]
    [].

(* core/elements/RightsAttributes.cpp:13-49 *)
Definition rightsAttributes : attributeClass :=
  mkAttributeClass "RightsAttributes"
    []
    ["hasType"]
    [mkWriting "type" "type" "hasType"]
    [mkReading "type" "hasType" "type" "XsToken"]
    [].

(* core/elements/RootAlterAttributes.cpp:13-94 *)
Definition rootAlterAttributes : attributeClass :=
  mkAttributeClass "RootAlterAttributes"
    []
    ["hasPrintObject"; "hasDefaultX"; "hasDefaultY"; "hasRelativeX"; "hasRelativeY"; "hasFontFamily"; "hasFontStyle"; "hasFontSize"; "hasFontWeight"; "hasLocation"]
    [mkWriting "printObject" "print-object" "hasPrintObject";
     mkWriting "defaultX" "default-x" "hasDefaultX";
     mkWriting "defaultY" "default-y" "hasDefaultY";
     mkWriting "relativeX" "relative-x" "hasRelativeX";
     mkWriting "relativeY" "relative-y" "hasRelativeY";
     mkWriting "fontFamily" "font-family" "hasFontFamily";
     mkWriting "fontStyle" "font-style" "hasFontStyle";
     mkWriting "fontSize" "font-size" "hasFontSize";
     mkWriting "fontWeight" "font-weight" "hasFontWeight";
     mkWriting "location" "location" "hasLocation"]
    [mkReading "printObject" "hasPrintObject" "print-object" "YesNo";
     mkReading "defaultX" "hasDefaultX" "default-x" "TenthsValue";
     mkReading "defaultY" "hasDefaultY" "default-y" "TenthsValue";
     mkReading "relativeX" "hasRelativeX" "relative-x" "TenthsValue";
     mkReading "relativeY" "hasRelativeY" "relative-y" "TenthsValue";
     mkReading "fontFamily" "hasFontFamily" "font-family" "CommaSeparatedText";
     mkReading "fontStyle" "hasFontStyle" "font-style" "FontStyle";
     mkReading "fontSize" "hasFontSize" "font-size" "FontSize";
     mkReading "fontWeight" "hasFontWeight" "font-weight" "FontWeight";
     mkReading "location" "hasLocation" "location" "LeftRight"]
    [].

(* core/elements/RootStepAttributes.cpp:13-89 *)
Definition rootStepAttributes : attributeClass :=
  mkAttributeClass "RootStepAttributes"
    []
    ["hasText"; "hasDefaultX"; "hasDefaultY"; "hasRelativeX"; "hasRelativeY"; "hasFontFamily"; "hasFontStyle"; "hasFontSize"; "hasFontWeight"]
    [mkWriting "text" "text" "hasText";
     mkWriting "defaultX" "default-x" "hasDefaultX";
     mkWriting "defaultY" "default-y" "hasDefaultY";
     mkWriting "relativeX" "relative-x" "hasRelativeX";
     mkWriting "relativeY" "relative-y" "hasRelativeY";
     mkWriting "fontFamily" "font-family" "hasFontFamily";
     mkWriting "fontStyle" "font-style" "hasFontStyle";
     mkWriting "fontSize" "font-size" "hasFontSize";
     mkWriting "fontWeight" "font-weight" "hasFontWeight"]
    [mkReading "text" "hasText" "text" "XsToken";
     mkReading "defaultX" "hasDefaultX" "default-x" "TenthsValue";
     mkReading "defaultY" "hasDefaultY" "default-y" "TenthsValue";
     mkReading "relativeX" "hasRelativeX" "relative-x" "TenthsValue";
     mkReading "relativeY" "hasRelativeY" "relative-y" "TenthsValue";
     mkReading "fontFamily" "hasFontFamily" "font-family" "CommaSeparatedText";
     mkReading "fontStyle" "hasFontStyle" "font-style" "FontStyle";
     mkReading "fontSize" "hasFontSize" "font-size" "FontSize";
     mkReading "fontWeight" "hasFontWeight" "font-weight" "FontWeight"]
    [].

(* core/elements/ScoreInstrumentAttributes.cpp:13-55 *)
Definition scoreInstrumentAttributes : attributeClass :=
  mkAttributeClass "ScoreInstrumentAttributes"
    ["hasId"]
    ["hasId"]
    [mkWriting "id" "id" "hasId"]
    [mkReading "id" "isIdFound" "id" "XsID"]
    ["isIdFound"].

(* core/elements/ScorePartAttributes.cpp:13-55 *)
Definition scorePartAttributes : attributeClass :=
  mkAttributeClass "ScorePartAttributes"
    ["hasId"]
    ["hasId"]
    [mkWriting "id" "id" "hasId"]
    [mkReading "id" "isIdFound" "id" "XsID"]
    ["isIdFound"].

(* core/elements/ScorePartwiseAttributes.cpp:16-52 *)
Definition scorePartwiseAttributes : attributeClass :=
  mkAttributeClass "ScorePartwiseAttributes"
    []
    ["hasVersion"]
    [mkWriting "version" "version" "hasVersion"]
    [mkReading "version" "hasVersion" "version" "XsToken"]
    [].

(* core/elements/ScoreTimewiseAttributes.cpp:15-50 *)
Definition scoreTimewiseAttributes : attributeClass :=
  mkAttributeClass "ScoreTimewiseAttributes"
    []
    ["hasVersion"]
    [mkWriting "version" "version" "hasVersion"]
    [mkReading "version" "hasVersion" "version" "XsToken"]
    [].

(* core/elements/SlashAttributes.cpp:13-65 *)
Definition slashAttributes : attributeClass :=
  mkAttributeClass "SlashAttributes"
    ["hasType"]
    ["hasType"; "hasUseDots"; "hasUseStems"]
    [mkWriting "type" "type" "hasType";
     mkWriting "useDots" "use-dots" "hasUseDots";
     mkWriting "useStems" "use-stems" "hasUseStems"]
    [mkReading "type" "isTypeFound" "type" "StartStop";
     mkReading "useDots" "hasUseDots" "use-dots" "YesNo";
     mkReading "useStems" "hasUseStems" "use-stems" "YesNo"]
    ["isTypeFound"].

(* core/elements/SlideAttributes.cpp:13-135 *)
Definition slideAttributes : attributeClass :=
  mkAttributeClass "SlideAttributes"
    ["hasType"]
    ["hasType"; "hasNumber"; "hasLineType"; "hasDashLength"; "hasSpaceLength"; "hasDefaultX"; "hasDefaultY"; "hasRelativeX"; "hasRelativeY"; "hasFontFamily"; "hasFontStyle"; "hasFontSize"; "hasFontWeight"; "hasAccelerate"; "hasBeats"; "hasFirstBeat"; "hasLastBeat"]
    [mkWriting "type" "type" "hasType";
     mkWriting "number" "number" "hasNumber";
     mkWriting "lineType" "line-type" "hasLineType";
     mkWriting "dashLength" "dash-length" "hasDashLength";
     mkWriting "spaceLength" "space-length" "hasSpaceLength";
     mkWriting "defaultX" "default-x" "hasDefaultX";
     mkWriting "defaultY" "default-y" "hasDefaultY";
     mkWriting "relativeX" "relative-x" "hasRelativeX";
     mkWriting "relativeY" "relative-y" "hasRelativeY";
     mkWriting "fontFamily" "font-family" "hasFontFamily";
     mkWriting "fontStyle" "font-style" "hasFontStyle";
     mkWriting "fontSize" "font-size" "hasFontSize";
     mkWriting "fontWeight" "font-weight" "hasFontWeight";
     mkWriting "accelerate" "accelerate" "hasAccelerate";
     mkWriting "beats" "beats" "hasBeats";
     mkWriting "firstBeat" "first-beat" "hasFirstBeat";
     mkWriting "lastBeat" "last-beat" "hasLastBeat"]
    [mkReading "type" "isTypeFound" "type" "StartStop";
     mkReading "number" "hasNumber" "number" "NumberLevel";
     mkReading "lineType" "hasLineType" "line-type" "LineType";
     mkReading "dashLength" "hasDashLength" "dash-length" "TenthsValue";
     mkReading "spaceLength" "hasSpaceLength" "space-length" "TenthsValue";
     mkReading "defaultX" "hasDefaultX" "default-x" "TenthsValue";
     mkReading "defaultY" "hasDefaultY" "default-y" "TenthsValue";
     mkReading "relativeX" "hasRelativeX" "relative-x" "TenthsValue";
     mkReading "relativeY" "hasRelativeY" "relative-y" "TenthsValue";
     mkReading "fontFamily" "hasFontFamily" "font-family" "CommaSeparatedText";
     mkReading "fontStyle" "hasFontStyle" "font-style" "FontStyle";
     mkReading "fontSize" "hasFontSize" "font-size" "FontSize";
     mkReading "fontWeight" "hasFontWeight" "font-weight" "FontWeight";
     mkReading "accelerate" "hasAccelerate" "accelerate" "YesNo";
     mkReading "beats" "hasBeats" "beats" "TrillBeats";
     mkReading "firstBeat" "hasFirstBeat" "first-beat" "Percent";
     mkReading "lastBeat" "hasLastBeat" "last-beat" "Percent"]
    ["isTypeFound"].

(* core/elements/SlurAttributes.cpp:13-138 *)
Definition slurAttributes : attributeClass :=
  mkAttributeClass "SlurAttributes"
    ["hasType"]
    ["hasType"; "hasNumber"; "hasDashLength"; "hasSpaceLength"; "hasDefaultX"; "hasDefaultY"; "hasRelativeX"; "hasRelativeY"; "hasPlacement"; "hasOrientation"; "hasBezierOffset"; "hasBezierOffset2"; "hasBezierX"; "hasBezierY"; "hasBezierX2"; "hasBezierY2"]
    [mkWriting "type" "type" "hasType";
     mkWriting "number" "number" "hasNumber";
     mkWriting "lineType" "line-type" "hasLineType";
     mkWriting "dashLength" "dash-length" "hasDashLength";
     mkWriting "spaceLength" "space-length" "hasSpaceLength";
     mkWriting "defaultX" "default-x" "hasDefaultX";
     mkWriting "defaultY" "default-y" "hasDefaultY";
     mkWriting "relativeX" "relative-x" "hasRelativeX";
     mkWriting "relativeY" "relative-y" "hasRelativeY";
     mkWriting "placement" "placement" "hasPlacement";
     mkWriting "orientation" "orientation" "hasOrientation";
     mkWriting "bezierOffset" "bezier-offset" "hasBezierOffset";
     mkWriting "bezierOffset2" "bezier-offset2" "hasBezierOffset2";
     mkWriting "bezierX" "bezier-x" "hasBezierX";
     mkWriting "bezierY" "bezier-y" "hasBezierY";
     mkWriting "bezierX2" "bezier-x2" "hasBezierX2";
     mkWriting "bezierY2" "bezier-y2" "hasBezierY2";
     mkWriting "color" "color" "hasColor"]
    [mkReading "type" "isTypeFound" "type" "StartStopContinue";
     mkReading "number" "hasNumber" "number" "NumberLevel";
     mkReading "lineType" "hasLineType" "line-type" "LineType";
     mkReading "dashLength" "hasDashLength" "dash-length" "TenthsValue";
     mkReading "spaceLength" "hasSpaceLength" "space-length" "TenthsValue";
     mkReading "defaultX" "hasDefaultX" "default-x" "TenthsValue";
     mkReading "defaultY" "hasDefaultY" "default-y" "TenthsValue";
     mkReading "relativeX" "hasRelativeX" "relative-x" "TenthsValue";
     mkReading "relativeY" "hasRelativeY" "relative-y" "TenthsValue";
     mkReading "placement" "hasPlacement" "placement" "AboveBelow";
     mkReading "orientation" "hasOrientation" "orientation" "OverUnder";
     mkReading "bezierOffset" "hasBezierOffset" "bezier-offset" "DivisionsValue";
     mkReading "bezierOffset2" "hasBezierOffset2" "bezier-offset2" "DivisionsValue";
     mkReading "bezierX" "hasBezierX" "bezier-x" "TenthsValue";
     mkReading "bezierY" "hasBezierY" "bezier-y" "TenthsValue";
     mkReading "bezierX2" "hasBezierX2" "bezier-x2" "TenthsValue";
     mkReading "bezierY2" "hasBezierY2" "bezier-y2" "TenthsValue";
     mkReading "color" "hasColor" "color" "Color"]
    ["isTypeFound"].

(* core/elements/SoundAttributes.cpp:13-129 *)
Definition soundAttributes : attributeClass :=
  mkAttributeClass "SoundAttributes"
    []
    ["hasTempo"; "hasDynamics"; "hasDacapo"; "hasSegno"; "hasDalsegno"; "hasCoda"; "hasTocoda"; "hasDivisions"; "hasForwardRepeat"; "hasFine"; "hasTimeOnly"; "hasPizzicato"; "hasPan"; "hasElevation"; "hasDamperPedal"; "hasSoftPedal"; "hasSostenutoPedal"]
    [mkWriting "tempo" "tempo" "hasTempo";
     mkWriting "dynamics" "dynamics" "hasDynamics";
     mkWriting "dacapo" "dacapo" "hasDacapo";
     mkWriting "segno" "segno" "hasSegno";
     mkWriting "dalsegno" "dalsegno" "hasDalsegno";
     mkWriting "coda" "coda" "hasCoda";
     mkWriting "tocoda" "tocoda" "hasTocoda";
     mkWriting "divisions" "divisions" "hasDivisions";
     mkWriting "forwardRepeat" "forward-repeat" "hasForwardRepeat";
     mkWriting "fine" "fine" "hasFine";
     mkWriting "timeOnly" "time-only" "hasTimeOnly";
     mkWriting "pizzicato" "pizzicato" "hasPizzicato";
     mkWriting "pan" "pan" "hasPan";
     mkWriting "elevation" "elevation" "hasElevation";
     mkWriting "damperPedal" "damper-pedal" "hasDamperPedal";
     mkWriting "softPedal" "soft-pedal" "hasSoftPedal";
     mkWriting "sostenutoPedal" "sostenuto-pedal" "hasSostenutoPedal"]
    [mkReading "tempo" "hasTempo" "tempo" "NonNegativeDecimal";
     mkReading "dynamics" "hasDynamics" "dynamics" "NonNegativeDecimal";
     mkReading "dacapo" "hasDacapo" "dacapo" "YesNo";
     mkReading "segno" "hasSegno" "segno" "XsToken";
     mkReading "dalsegno" "hasDalsegno" "dalsegno" "XsToken";
     mkReading "coda" "hasCoda" "coda" "XsToken";
     mkReading "tocoda" "hasTocoda" "tocoda" "XsToken";
     mkReading "divisions" "hasDivisions" "divisions" "DivisionsValue";
     mkReading "forwardRepeat" "hasForwardRepeat" "forward-repeat" "YesNo";
     mkReading "fine" "hasFine" "fine" "XsToken";
     mkReading "timeOnly" "hasTimeOnly" "time-only" "TimeOnly";
     mkReading "pizzicato" "hasPizzicato" "pizzicato" "YesNo";
     mkReading "pan" "hasPan" "pan" "RotationDegrees";
     mkReading "elevation" "hasElevation" "elevation" "RotationDegrees";
     mkReading "damperPedal" "hasDamperPedal" "damper-pedal" "YesNoNumber";
     mkReading "softPedal" "hasSoftPedal" "soft-pedal" "YesNoNumber";
     mkReading "sostenutoPedal" "hasSostenutoPedal" "sostenuto-pedal" "YesNoNumber"]
    [].

(* core/elements/StaffDetailsAttributes.cpp:13-64 *)
Definition staffDetailsAttributes : attributeClass :=
  mkAttributeClass "StaffDetailsAttributes"
    []
    ["hasNumber"; "hasShowFrets"; "hasPrintObject"; "hasPrintSpacing"]
    [mkWriting "number" "number" "hasNumber";
     mkWriting "showFrets" "show-frets" "hasShowFrets";
     mkWriting "printObject" "print-object" "hasPrintObject";
     mkWriting "printSpacing" "print-spacing" "hasPrintSpacing"]
    [mkReading "number" "hasNumber" "number" "StaffNumber";
     mkReading "showFrets" "hasShowFrets" "show-frets" "ShowFrets";
     mkReading "printObject" "hasPrintObject" "print-object" "YesNo";
     mkReading "printSpacing" "hasPrintSpacing" "print-spacing" "YesNo"]
    [].

(* core/elements/StaffLayoutAttributes.cpp:13-49 *)
Definition staffLayoutAttributes : attributeClass :=
  mkAttributeClass "StaffLayoutAttributes"
    []
    ["hasNumber"]
    [mkWriting "number" "number" "hasNumber"]
    [mkReading "number" "hasNumber" "number" "StaffNumber"]
    [].

(* core/elements/StaffTuningAttributes.cpp:13-49 *)
Definition staffTuningAttributes : attributeClass :=
  mkAttributeClass "StaffTuningAttributes"
    []
    ["hasLine"]
    [mkWriting "line" "line" "hasLine"]
    [mkReading "line" "hasLine" "line" "StaffLine"]
    [].

(* core/elements/StemAttributes.cpp:13-64 *)
Definition stemAttributes : attributeClass :=
  mkAttributeClass "StemAttributes"
    []
    ["hasDefaultX"; "hasDefaultY"; "hasRelativeX"; "hasRelativeY"]
    [mkWriting "defaultX" "default-x" "hasDefaultX";
     mkWriting "defaultY" "default-y" "hasDefaultY";
     mkWriting "relativeX" "relative-x" "hasRelativeX";
     mkWriting "relativeY" "relative-y" "hasRelativeY"]
    [mkReading "defaultX" "hasDefaultX" "default-x" "TenthsValue";
     mkReading "defaultY" "hasDefaultY" "default-y" "TenthsValue";
     mkReading "relativeX" "hasRelativeX" "relative-x" "TenthsValue";
     mkReading "relativeY" "hasRelativeY" "relative-y" "TenthsValue"]
    [].

(* core/elements/StickAttributes.cpp:13-49 *)
Definition stickAttributes : attributeClass :=
  mkAttributeClass "StickAttributes"
    []
    ["hasTip"]
    [mkWriting "tip" "tip" "hasTip"]
    [mkReading "tip" "hasTip" "tip" "TipDirection"]
    [].

(* core/elements/StringAttributes.cpp:13-94 *)
Definition stringAttributes : attributeClass :=
  mkAttributeClass "StringAttributes"
    []
    ["hasDefaultX"; "hasDefaultY"; "hasRelativeX"; "hasRelativeY"; "hasFontFamily"; "hasFontStyle"; "hasFontSize"; "hasFontWeight"; "hasColor"; "hasPlacement"]
    [mkWriting "defaultX" "default-x" "hasDefaultX";
     mkWriting "defaultY" "default-y" "hasDefaultY";
     mkWriting "relativeX" "relative-x" "hasRelativeX";
     mkWriting "relativeY" "relative-y" "hasRelativeY";
     mkWriting "fontFamily" "font-family" "hasFontFamily";
     mkWriting "fontStyle" "font-style" "hasFontStyle";
     mkWriting "fontSize" "font-size" "hasFontSize";
     mkWriting "fontWeight" "font-weight" "hasFontWeight";
     mkWriting "color" "color" "hasColor";
     mkWriting "placement" "placement" "hasPlacement"]
    [mkReading "defaultX" "hasDefaultX" "default-x" "TenthsValue";
     mkReading "defaultY" "hasDefaultY" "default-y" "TenthsValue";
     mkReading "relativeX" "hasRelativeX" "relative-x" "TenthsValue";
     mkReading "relativeY" "hasRelativeY" "relative-y" "TenthsValue";
     mkReading "fontFamily" "hasFontFamily" "font-family" "CommaSeparatedText";
     mkReading "fontStyle" "hasFontStyle" "font-style" "FontStyle";
     mkReading "fontSize" "hasFontSize" "font-size" "FontSize";
     mkReading "fontWeight" "hasFontWeight" "font-weight" "FontWeight";
     mkReading "color" "hasColor" "color" "Color";
     mkReading "placement" "hasPlacement" "placement" "AboveBelow"]
    [].

(* core/elements/StringMuteAttributes.cpp:13-100 *)
Definition stringMuteAttributes : attributeClass :=
  mkAttributeClass "StringMuteAttributes"
    ["hasType"]
    ["hasType"; "hasDefaultX"; "hasDefaultY"; "hasRelativeX"; "hasRelativeY"; "hasFontFamily"; "hasFontStyle"; "hasFontSize"; "hasFontWeight"; "hasHalign"]
    [mkWriting "type" "type" "hasType";
     mkWriting "defaultX" "default-x" "hasDefaultX";
     mkWriting "defaultY" "default-y" "hasDefaultY";
     mkWriting "relativeX" "relative-x" "hasRelativeX";
     mkWriting "relativeY" "relative-y" "hasRelativeY";
     mkWriting "fontFamily" "font-family" "hasFontFamily";
     mkWriting "fontStyle" "font-style" "hasFontStyle";
     mkWriting "fontSize" "font-size" "hasFontSize";
     mkWriting "fontWeight" "font-weight" "hasFontWeight";
     mkWriting "halign" "halign" "hasHalign"]
    [mkReading "type" "isTypeFound" "type" "OnOff";
     mkReading "defaultX" "hasDefaultX" "default-x" "TenthsValue";
     mkReading "defaultY" "hasDefaultY" "default-y" "TenthsValue";
     mkReading "relativeX" "hasRelativeX" "relative-x" "TenthsValue";
     mkReading "relativeY" "hasRelativeY" "relative-y" "TenthsValue";
     mkReading "fontFamily" "hasFontFamily" "font-family" "CommaSeparatedText";
     mkReading "fontStyle" "hasFontStyle" "font-style" "FontStyle";
     mkReading "fontSize" "hasFontSize" "font-size" "FontSize";
     mkReading "fontWeight" "hasFontWeight" "font-weight" "FontWeight";
     mkReading "halign" "hasHalign" "halign" "LeftCenterRight"]
    ["isTypeFound"].

(* core/elements/StrongAccentAttributes.cpp:13-99 *)
Definition strongAccentAttributes : attributeClass :=
  mkAttributeClass "StrongAccentAttributes"
    []
    ["hasDefaultX"; "hasDefaultY"; "hasRelativeX"; "hasRelativeY"; "hasFontFamily"; "hasFontStyle"; "hasFontSize"; "hasFontWeight"; "hasColor"; "hasPlacement"; "hasType"]
    [mkWriting "defaultX" "default-x" "hasDefaultX";
     mkWriting "defaultY" "default-y" "hasDefaultY";
     mkWriting "relativeX" "relative-x" "hasRelativeX";
     mkWriting "relativeY" "relative-y" "hasRelativeY";
     mkWriting "fontFamily" "font-family" "hasFontFamily";
     mkWriting "fontStyle" "font-style" "hasFontStyle";
     mkWriting "fontSize" "font-size" "hasFontSize";
     mkWriting "fontWeight" "font-weight" "hasFontWeight";
     mkWriting "color" "color" "hasColor";
     mkWriting "placement" "placement" "hasPlacement";
     mkWriting "type" "type" "hasType"]
    [mkReading "defaultX" "hasDefaultX" "default-x" "TenthsValue";
     mkReading "defaultY" "hasDefaultY" "default-y" "TenthsValue";
     mkReading "relativeX" "hasRelativeX" "relative-x" "TenthsValue";
     mkReading "relativeY" "hasRelativeY" "relative-y" "TenthsValue";
     mkReading "fontFamily" "hasFontFamily" "font-family" "CommaSeparatedText";
     mkReading "fontStyle" "hasFontStyle" "font-style" "FontStyle";
     mkReading "fontSize" "hasFontSize" "font-size" "FontSize";
     mkReading "fontWeight" "hasFontWeight" "font-weight" "FontWeight";
     mkReading "color" "hasColor" "color" "Color";
     mkReading "placement" "hasPlacement" "placement" "AboveBelow";
     mkReading "type" "hasType" "type" "UpDown"]
    [].

(* core/elements/SuffixAttributes.cpp:13-84 *)
Definition suffixAttributes : attributeClass :=
  mkAttributeClass "SuffixAttributes"
    []
    ["hasDefaultX"; "hasDefaultY"; "hasRelativeX"; "hasRelativeY"; "hasFontFamily"; "hasFontStyle"; "hasFontSize"; "hasFontWeight"]
    [mkWriting "defaultX" "default-x" "hasDefaultX";
     mkWriting "defaultY" "default-y" "hasDefaultY";
     mkWriting "relativeX" "relative-x" "hasRelativeX";
     mkWriting "relativeY" "relative-y" "hasRelativeY";
     mkWriting "fontFamily" "font-family" "hasFontFamily";
     mkWriting "fontStyle" "font-style" "hasFontStyle";
     mkWriting "fontSize" "font-size" "hasFontSize";
     mkWriting "fontWeight" "font-weight" "hasFontWeight"]
    [mkReading "defaultX" "hasDefaultX" "default-x" "TenthsValue";
     mkReading "defaultY" "hasDefaultY" "default-y" "TenthsValue";
     mkReading "relativeX" "hasRelativeX" "relative-x" "TenthsValue";
     mkReading "relativeY" "hasRelativeY" "relative-y" "TenthsValue";
     mkReading "fontFamily" "hasFontFamily" "font-family" "CommaSeparatedText";
     mkReading "fontStyle" "hasFontStyle" "font-style" "FontStyle";
     mkReading "fontSize" "hasFontSize" "font-size" "FontSize";
     mkReading "fontWeight" "hasFontWeight" "font-weight" "FontWeight"]
    [].

(* core/elements/SupportsAttributes.cpp:13-76 *)
Definition supportsAttributes : attributeClass :=
  mkAttributeClass "SupportsAttributes"
    ["hasType"; "hasElement"]
    ["hasType"; "hasElement"; "hasAttribute"; "hasValue"]
    [mkWriting "type" "type" "hasType";
     mkWriting "element" "element" "hasElement";
     mkWriting "attribute" "attribute" "hasAttribute";
     mkWriting "value" "value" "hasValue"]
    [mkReading "type" "isTypeFound" "type" "YesNo";
     mkReading "element" "isElementFound" "element" "XsNMToken";
     mkReading "attribute" "hasAttribute" "attribute" "XsNMToken";
     mkReading "value" "hasValue" "value" "XsToken"]
    ["isTypeFound"; "isElementFound"].

(* core/elements/TapAttributes.cpp:13-89 *)
Definition tapAttributes : attributeClass :=
  mkAttributeClass "TapAttributes"
    []
    ["hasDefaultX"; "hasDefaultY"; "hasRelativeX"; "hasRelativeY"; "hasFontFamily"; "hasFontStyle"; "hasFontSize"; "hasFontWeight"; "hasPlacement"]
    [mkWriting "defaultX" "default-x" "hasDefaultX";
     mkWriting "defaultY" "default-y" "hasDefaultY";
     mkWriting "relativeX" "relative-x" "hasRelativeX";
     mkWriting "relativeY" "relative-y" "hasRelativeY";
     mkWriting "fontFamily" "font-family" "hasFontFamily";
     mkWriting "fontStyle" "font-style" "hasFontStyle";
     mkWriting "fontSize" "font-size" "hasFontSize";
     mkWriting "fontWeight" "font-weight" "hasFontWeight";
     mkWriting "placement" "placement" "hasPlacement"]
    [mkReading "defaultX" "hasDefaultX" "default-x" "TenthsValue";
     mkReading "defaultY" "hasDefaultY" "default-y" "TenthsValue";
     mkReading "relativeX" "hasRelativeX" "relative-x" "TenthsValue";
     mkReading "relativeY" "hasRelativeY" "relative-y" "TenthsValue";
     mkReading "fontFamily" "hasFontFamily" "font-family" "CommaSeparatedText";
     mkReading "fontStyle" "hasFontStyle" "font-style" "FontStyle";
     mkReading "fontSize" "hasFontSize" "font-size" "FontSize";
     mkReading "fontWeight" "hasFontWeight" "font-weight" "FontWeight";
     mkReading "placement" "hasPlacement" "placement" "AboveBelow"]
    [].

(* core/elements/TextAttributes.cpp:13-95 *)
Definition textAttributes : attributeClass :=
  mkAttributeClass "TextAttributes"
    []
    ["hasFontFamily"; "hasFontStyle"; "hasFontSize"; "hasFontWeight"; "hasUnderline"; "hasOverline"; "hasLineThrough"; "hasRotation"; "hasLetterSpacing"; "hasLang"]
    [mkWriting "fontFamily" "font-family" "hasFontFamily";
     mkWriting "fontStyle" "font-style" "hasFontStyle";
     mkWriting "fontSize" "font-size" "hasFontSize";
     mkWriting "fontWeight" "font-weight" "hasFontWeight";
     mkWriting "underline" "underline" "hasUnderline";
     mkWriting "overline" "overline" "hasOverline";
     mkWriting "lineThrough" "line-through" "hasLineThrough";
     mkWriting "rotation" "rotation" "hasRotation";
     mkWriting "letterSpacing" "letter-spacing" "hasLetterSpacing";
     mkWriting "lang" "xml:lang" "hasLang"]
    [mkReading "fontFamily" "hasFontFamily" "font-family" "CommaSeparatedText";
     mkReading "fontStyle" "hasFontStyle" "font-style" "FontStyle";
     mkReading "fontSize" "hasFontSize" "font-size" "FontSize";
     mkReading "fontWeight" "hasFontWeight" "font-weight" "FontWeight";
     mkReading "underline" "hasUnderline" "underline" "NumberOfLines";
     mkReading "overline" "hasOverline" "overline" "NumberOfLines";
     mkReading "lineThrough" "hasLineThrough" "line-through" "NumberOfLines";
     mkReading "rotation" "hasRotation" "rotation" "RotationDegrees";
     mkReading "letterSpacing" "hasLetterSpacing" "letter-spacing" "NumberOrNormal";
     mkReading "lang" "hasLang" "lang" "XmlLang";
     mkReading "lang" "hasLang" "xml:lang" "XmlLang"]
    [].

(* core/elements/TieAttributes.cpp:13-60 *)
Definition tieAttributes : attributeClass :=
  mkAttributeClass "TieAttributes"
    ["hasType"]
    ["hasType"; "hasTimeOnly"]
    [mkWriting "type" "type" "hasType";
     mkWriting "timeOnly" "time-only" "hasTimeOnly"]
    [mkReading "type" "isTypeFound" "type" "StartStop";
     mkReading "timeOnly" "hasTimeOnly" "time-only" "TimeOnly"]
    ["isTypeFound"].

(* core/elements/TiedAttributes.cpp:13-140 *)
Definition tiedAttributes : attributeClass :=
  mkAttributeClass "TiedAttributes"
    ["hasType"]
    ["hasType"; "hasNumber"; "hasLineType"; "hasDashLength"; "hasSpaceLength"; "hasDefaultX"; "hasDefaultY"; "hasRelativeX"; "hasRelativeY"; "hasPlacement"; "hasOrientation"; "hasBezierOffset"; "hasBezierOffset2"; "hasBezierX"; "hasBezierY"; "hasBezierX2"; "hasBezierY2"; "hasColor"]
    [mkWriting "type" "type" "hasType";
     mkWriting "number" "number" "hasNumber";
     mkWriting "lineType" "line-type" "hasLineType";
     mkWriting "dashLength" "dash-length" "hasDashLength";
     mkWriting "spaceLength" "space-length" "hasSpaceLength";
     mkWriting "defaultX" "default-x" "hasDefaultX";
     mkWriting "defaultY" "default-y" "hasDefaultY";
     mkWriting "relativeX" "relative-x" "hasRelativeX";
     mkWriting "relativeY" "relative-y" "hasRelativeY";
     mkWriting "placement" "placement" "hasPlacement";
     mkWriting "orientation" "orientation" "hasOrientation";
     mkWriting "bezierOffset" "bezier-offset" "hasBezierOffset";
     mkWriting "bezierOffset2" "bezier-offset2" "hasBezierOffset2";
     mkWriting "bezierX" "bezier-x" "hasBezierX";
     mkWriting "bezierY" "bezier-y" "hasBezierY";
     mkWriting "bezierX2" "bezier-x2" "hasBezierX2";
     mkWriting "bezierY2" "bezier-y2" "hasBezierY2";
     mkWriting "color" "color" "hasColor"]
    [mkReading "type" "isTypeFound" "type" "StartStopContinue";
     mkReading "number" "hasNumber" "number" "NumberLevel";
     mkReading "lineType" "hasLineType" "line-type" "LineType";
     mkReading "dashLength" "hasDashLength" "dash-length" "TenthsValue";
     mkReading "spaceLength" "hasSpaceLength" "space-length" "TenthsValue";
     mkReading "defaultX" "hasDefaultX" "default-x" "TenthsValue";
     mkReading "defaultY" "hasDefaultY" "default-y" "TenthsValue";
     mkReading "relativeX" "hasRelativeX" "relative-x" "TenthsValue";
     mkReading "relativeY" "hasRelativeY" "relative-y" "TenthsValue";
     mkReading "placement" "hasPlacement" "placement" "AboveBelow";
     mkReading "orientation" "hasOrientation" "orientation" "OverUnder";
     mkReading "bezierOffset" "hasBezierOffset" "bezier-offset" "DivisionsValue";
     mkReading "bezierOffset2" "hasBezierOffset2" "bezier-offset-2" "DivisionsValue";
     mkReading "bezierX" "hasBezierX" "bezier-x" "TenthsValue";
     mkReading "bezierY" "hasBezierY" "bezier-y" "TenthsValue";
     mkReading "bezierX2" "hasBezierX2" "bezier-x-2" "TenthsValue";
     mkReading "bezierY2" "hasBezierY2" "bezier-y-2" "TenthsValue";
     mkReading "color" "hasColor" "color" "Color"]
    ["isTypeFound"].

(* core/elements/TimeAttributes.cpp:13-119 *)
Definition timeAttributes : attributeClass :=
  mkAttributeClass "TimeAttributes"
    []
    ["hasNumber"; "hasSymbol"; "hasSeparator"; "hasDefaultX"; "hasDefaultY"; "hasRelativeX"; "hasRelativeY"; "hasFontFamily"; "hasFontStyle"; "hasFontSize"; "hasFontWeight"; "hasColor"; "hasHalign"; "hasValign"; "hasPrintObject"]
    [mkWriting "number" "number" "hasNumber";
     mkWriting "symbol" "symbol" "hasSymbol";
     mkWriting "separator" "separator" "hasSeparator";
     mkWriting "defaultX" "default-x" "hasDefaultX";
     mkWriting "defaultY" "default-y" "hasDefaultY";
     mkWriting "relativeX" "relative-x" "hasRelativeX";
     mkWriting "relativeY" "relative-y" "hasRelativeY";
     mkWriting "fontFamily" "font-family" "hasFontFamily";
     mkWriting "fontStyle" "font-style" "hasFontStyle";
     mkWriting "fontSize" "font-size" "hasFontSize";
     mkWriting "fontWeight" "font-weight" "hasFontWeight";
     mkWriting "color" "color" "hasColor";
     mkWriting "halign" "halign" "hasHalign";
     mkWriting "valign" "valign" "hasValign";
     mkWriting "printObject" "print-object" "hasPrintObject"]
    [mkReading "number" "hasNumber" "number" "StaffNumber";
     mkReading "symbol" "hasSymbol" "symbol" "TimeSymbol";
     mkReading "separator" "hasSeparator" "separator" "TimeSeparator";
     mkReading "defaultX" "hasDefaultX" "default-x" "TenthsValue";
     mkReading "defaultY" "hasDefaultY" "default-y" "TenthsValue";
     mkReading "relativeX" "hasRelativeX" "relative-x" "TenthsValue";
     mkReading "relativeY" "hasRelativeY" "relative-y" "TenthsValue";
     mkReading "fontFamily" "hasFontFamily" "font-family" "CommaSeparatedText";
     mkReading "fontStyle" "hasFontStyle" "font-style" "FontStyle";
     mkReading "fontSize" "hasFontSize" "font-size" "FontSize";
     mkReading "fontWeight" "hasFontWeight" "font-weight" "FontWeight";
     mkReading "color" "hasColor" "color" "Color";
     mkReading "halign" "hasHalign" "halign" "LeftCenterRight";
     mkReading "valign" "hasValign" "valign" "Valign";
     mkReading "printObject" "hasPrintObject" "print-object" "YesNo"]
    [].

(* core/elements/ToeAttributes.cpp:13-99 *)
Definition toeAttributes : attributeClass :=
  mkAttributeClass "ToeAttributes"
    []
    ["hasDefaultX"; "hasDefaultY"; "hasRelativeX"; "hasRelativeY"; "hasFontFamily"; "hasFontStyle"; "hasFontSize"; "hasFontWeight"; "hasColor"; "hasPlacement"; "hasSubstitution"]
    [mkWriting "defaultX" "default-x" "hasDefaultX";
     mkWriting "defaultY" "default-y" "hasDefaultY";
     mkWriting "relativeX" "relative-x" "hasRelativeX";
     mkWriting "relativeY" "relative-y" "hasRelativeY";
     mkWriting "fontFamily" "font-family" "hasFontFamily";
     mkWriting "fontStyle" "font-style" "hasFontStyle";
     mkWriting "fontSize" "font-size" "hasFontSize";
     mkWriting "fontWeight" "font-weight" "hasFontWeight";
     mkWriting "color" "color" "hasColor";
     mkWriting "placement" "placement" "hasPlacement";
     mkWriting "substitution" "substitution" "hasSubstitution"]
    [mkReading "defaultX" "hasDefaultX" "default-x" "TenthsValue";
     mkReading "defaultY" "hasDefaultY" "default-y" "TenthsValue";
     mkReading "relativeX" "hasRelativeX" "relative-x" "TenthsValue";
     mkReading "relativeY" "hasRelativeY" "relative-y" "TenthsValue";
     mkReading "fontFamily" "hasFontFamily" "font-family" "CommaSeparatedText";
     mkReading "fontStyle" "hasFontStyle" "font-style" "FontStyle";
     mkReading "fontSize" "hasFontSize" "font-size" "FontSize";
     mkReading "fontWeight" "hasFontWeight" "font-weight" "FontWeight";
     mkReading "color" "hasColor" "color" "Color";
     mkReading "placement" "hasPlacement" "placement" "AboveBelow";
     mkReading "substitution" "hasSubstitution" "substitution" "YesNo"]
    [].

(* core/elements/TransposeAttributes.cpp:13-49 *)
Definition transposeAttributes : attributeClass :=
  mkAttributeClass "TransposeAttributes"
    []
    ["hasNumber"]
    [mkWriting "number" "number" "hasNumber"]
    [mkReading "number" "hasNumber" "number" "StaffNumber"]
    [].

(* core/elements/TremoloAttributes.cpp:13-94 *)
Definition tremoloAttributes : attributeClass :=
  mkAttributeClass "TremoloAttributes"
    []
    ["hasType"; "hasDefaultX"; "hasDefaultY"; "hasRelativeX"; "hasRelativeY"; "hasFontFamily"; "hasFontStyle"; "hasFontSize"; "hasFontWeight"; "hasPlacement"]
    [mkWriting "type" "type" "hasType";
     mkWriting "defaultX" "default-x" "hasDefaultX";
     mkWriting "defaultY" "default-y" "hasDefaultY";
     mkWriting "relativeX" "relative-x" "hasRelativeX";
     mkWriting "relativeY" "relative-y" "hasRelativeY";
     mkWriting "fontFamily" "font-family" "hasFontFamily";
     mkWriting "fontStyle" "font-style" "hasFontStyle";
     mkWriting "fontSize" "font-size" "hasFontSize";
     mkWriting "fontWeight" "font-weight" "hasFontWeight";
     mkWriting "placement" "placement" "hasPlacement"]
    [mkReading "type" "hasType" "type" "StartStopSingle";
     mkReading "defaultX" "hasDefaultX" "default-x" "TenthsValue";
     mkReading "defaultY" "hasDefaultY" "default-y" "TenthsValue";
     mkReading "relativeX" "hasRelativeX" "relative-x" "TenthsValue";
     mkReading "relativeY" "hasRelativeY" "relative-y" "TenthsValue";
     mkReading "fontFamily" "hasFontFamily" "font-family" "CommaSeparatedText";
     mkReading "fontStyle" "hasFontStyle" "font-style" "FontStyle";
     mkReading "fontSize" "hasFontSize" "font-size" "FontSize";
     mkReading "fontWeight" "hasFontWeight" "font-weight" "FontWeight";
     mkReading "placement" "hasPlacement" "placement" "AboveBelow"]
    [].

(* core/elements/TupletAttributes.cpp:13-105 *)
Definition tupletAttributes : attributeClass :=
  mkAttributeClass "TupletAttributes"
    ["hasType"]
    ["hasType"; "hasNumber"; "hasBracket"; "hasShowNumber"; "hasShowType"; "hasLineShape"; "hasDefaultX"; "hasDefaultY"; "hasRelativeX"; "hasRelativeY"; "hasPlacement"]
    [mkWriting "type" "type" "hasType";
     mkWriting "number" "number" "hasNumber";
     mkWriting "bracket" "bracket" "hasBracket";
     mkWriting "showNumber" "show-number" "hasShowNumber";
     mkWriting "showType" "show-type" "hasShowType";
     mkWriting "lineShape" "line-shape" "hasLineShape";
     mkWriting "defaultX" "default-x" "hasDefaultX";
     mkWriting "defaultY" "default-y" "hasDefaultY";
     mkWriting "relativeX" "relative-x" "hasRelativeX";
     mkWriting "relativeY" "relative-y" "hasRelativeY";
     mkWriting "placement" "placement" "hasPlacement"]
    [mkReading "type" "isTypeFound" "type" "StartStop";
     mkReading "number" "hasNumber" "number" "NumberLevel";
     mkReading "bracket" "hasBracket" "bracket" "YesNo";
     mkReading "showNumber" "hasShowNumber" "show-number" "ShowTuplet";
     mkReading "showType" "hasShowType" "show-type" "ShowTuplet";
     mkReading "lineShape" "hasLineShape" "line-shape" "LineShape";
     mkReading "defaultX" "hasDefaultX" "default-x" "TenthsValue";
     mkReading "defaultY" "hasDefaultY" "default-y" "TenthsValue";
     mkReading "relativeX" "hasRelativeX" "relative-x" "TenthsValue";
     mkReading "relativeY" "hasRelativeY" "relative-y" "TenthsValue";
     mkReading "placement" "hasPlacement" "placement" "AboveBelow"]
    ["isTypeFound"].

(* core/elements/TupletDotAttributes.cpp:13-64 *)
Definition tupletDotAttributes : attributeClass :=
  mkAttributeClass "TupletDotAttributes"
    []
    ["hasFontFamily"; "hasFontStyle"; "hasFontSize"; "hasFontWeight"]
    [mkWriting "fontFamily" "font-family" "hasFontFamily";
     mkWriting "fontStyle" "font-style" "hasFontStyle";
     mkWriting "fontSize" "font-size" "hasFontSize";
     mkWriting "fontWeight" "font-weight" "hasFontWeight"]
    [mkReading "fontFamily" "hasFontFamily" "font-family" "CommaSeparatedText";
     mkReading "fontStyle" "hasFontStyle" "font-style" "FontStyle";
     mkReading "fontSize" "hasFontSize" "font-size" "FontSize";
     mkReading "fontWeight" "hasFontWeight" "font-weight" "FontWeight"]
    [].

(* core/elements/TupletNumberAttributes.cpp:13-64 *)
Definition tupletNumberAttributes : attributeClass :=
  mkAttributeClass "TupletNumberAttributes"
    []
    ["hasFontFamily"; "hasFontStyle"; "hasFontSize"; "hasFontWeight"]
    [mkWriting "fontFamily" "font-family" "hasFontFamily";
     mkWriting "fontStyle" "font-style" "hasFontStyle";
     mkWriting "fontSize" "font-size" "hasFontSize";
     mkWriting "fontWeight" "font-weight" "hasFontWeight"]
    [mkReading "fontFamily" "hasFontFamily" "font-family" "CommaSeparatedText";
     mkReading "fontStyle" "hasFontStyle" "font-style" "FontStyle";
     mkReading "fontSize" "hasFontSize" "font-size" "FontSize";
     mkReading "fontWeight" "hasFontWeight" "font-weight" "FontWeight"]
    [].

(* core/elements/TupletTypeAttributes.cpp:13-64 *)
Definition tupletTypeAttributes : attributeClass :=
  mkAttributeClass "TupletTypeAttributes"
    []
    ["hasFontFamily"; "hasFontStyle"; "hasFontSize"; "hasFontWeight"]
    [mkWriting "fontFamily" "font-family" "hasFontFamily";
     mkWriting "fontStyle" "font-style" "hasFontStyle";
     mkWriting "fontSize" "font-size" "hasFontSize";
     mkWriting "fontWeight" "font-weight" "hasFontWeight"]
    [mkReading "fontFamily" "hasFontFamily" "font-family" "CommaSeparatedText";
     mkReading "fontStyle" "hasFontStyle" "font-style" "FontStyle";
     mkReading "fontSize" "hasFontSize" "font-size" "FontSize";
     mkReading "fontWeight" "hasFontWeight" "font-weight" "FontWeight"]
    [].

(* core/elements/TurnAttributes.cpp:13-129 *)
Definition turnAttributes : attributeClass :=
  mkAttributeClass "TurnAttributes"
    []
    ["hasDefaultX"; "hasDefaultY"; "hasRelativeX"; "hasRelativeY"; "hasFontFamily"; "hasFontStyle"; "hasFontSize"; "hasFontWeight"; "hasPlacement"; "hasStartNote"; "hasTrillStep"; "hasTwoNoteTurn"; "hasAccelerate"; "hasBeats"; "hasSecondBeat"; "hasLastBeat"; "hasSlash"]
    [mkWriting "defaultX" "default-x" "hasDefaultX";
     mkWriting "defaultY" "default-y" "hasDefaultY";
     mkWriting "relativeX" "relative-x" "hasRelativeX";
     mkWriting "relativeY" "relative-y" "hasRelativeY";
     mkWriting "fontFamily" "font-family" "hasFontFamily";
     mkWriting "fontStyle" "font-style" "hasFontStyle";
     mkWriting "fontSize" "font-size" "hasFontSize";
     mkWriting "fontWeight" "font-weight" "hasFontWeight";
     mkWriting "placement" "placement" "hasPlacement";
     mkWriting "startNote" "start-note" "hasStartNote";
     mkWriting "trillStep" "trill-step" "hasTrillStep";
     mkWriting "twoNoteTurn" "two-note-turn" "hasTwoNoteTurn";
     mkWriting "accelerate" "accelerate" "hasAccelerate";
     mkWriting "beats" "beats" "hasBeats";
     mkWriting "secondBeat" "second-beat" "hasSecondBeat";
     mkWriting "lastBeat" "last-beat" "hasLastBeat";
     mkWriting "slash" "slash" "hasSlash"]
    [mkReading "defaultX" "hasDefaultX" "default-x" "TenthsValue";
     mkReading "defaultY" "hasDefaultY" "default-y" "TenthsValue";
     mkReading "relativeX" "hasRelativeX" "relative-x" "TenthsValue";
     mkReading "relativeY" "hasRelativeY" "relative-y" "TenthsValue";
     mkReading "fontFamily" "hasFontFamily" "font-family" "CommaSeparatedText";
     mkReading "fontStyle" "hasFontStyle" "font-style" "FontStyle";
     mkReading "fontSize" "hasFontSize" "font-size" "FontSize";
     mkReading "fontWeight" "hasFontWeight" "font-weight" "FontWeight";
     mkReading "placement" "hasPlacement" "placement" "AboveBelow";
     mkReading "startNote" "hasStartNote" "start-note" "StartNote";
     mkReading "trillStep" "hasTrillStep" "trill-step" "TrillStep";
     mkReading "twoNoteTurn" "hasTwoNoteTurn" "two-note-turn" "TwoNoteTurn";
     mkReading "accelerate" "hasAccelerate" "accelerate" "YesNo";
     mkReading "beats" "hasBeats" "beats" "TrillBeats";
     mkReading "secondBeat" "hasSecondBeat" "second-beat" "Percent";
     mkReading "lastBeat" "hasLastBeat" "last-beat" "Percent";
     mkReading "slash" "hasSlash" "slash" "YesNo"]
    [].

(* core/elements/TypeAttributes.cpp:13-49 *)
Definition typeAttributes : attributeClass :=
  mkAttributeClass "TypeAttributes"
    []
    ["hasSize"]
    [mkWriting "size" "size" "hasSize"]
    [mkReading "size" "hasSize" "size" "SymbolSize"]
    [].

(* core/elements/WavyLineAttributes.cpp:13-120 *)
Definition wavyLineAttributes : attributeClass :=
  mkAttributeClass "WavyLineAttributes"
    ["hasType"]
    ["hasType"; "hasNumber"; "hasDefaultX"; "hasDefaultY"; "hasRelativeX"; "hasRelativeY"; "hasPlacement"; "hasStartNote"; "hasTrillStep"; "hasTwoNoteTurn"; "hasAccelerate"; "hasBeats"; "hasSecondBeat"; "hasLastBeat"]
    [mkWriting "type" "type" "hasType";
     mkWriting "number" "number" "hasNumber";
     mkWriting "defaultX" "default-x" "hasDefaultX";
     mkWriting "defaultY" "default-y" "hasDefaultY";
     mkWriting "relativeX" "relative-x" "hasRelativeX";
     mkWriting "relativeY" "relative-y" "hasRelativeY";
     mkWriting "placement" "placement" "hasPlacement";
     mkWriting "startNote" "start-note" "hasStartNote";
     mkWriting "trillStep" "trill-step" "hasTrillStep";
     mkWriting "twoNoteTurn" "two-note-turn" "hasTwoNoteTurn";
     mkWriting "accelerate" "accelerate" "hasAccelerate";
     mkWriting "beats" "beats" "hasBeats";
     mkWriting "secondBeat" "second-beat" "hasSecondBeat";
     mkWriting "lastBeat" "last-beat" "hasLastBeat"]
    [mkReading "type" "isTypeFound" "type" "StartStopContinue";
     mkReading "number" "hasNumber" "number" "NumberLevel";
     mkReading "defaultX" "hasDefaultX" "default-x" "TenthsValue";
     mkReading "defaultY" "hasDefaultY" "default-y" "TenthsValue";
     mkReading "relativeX" "hasRelativeX" "relative-x" "TenthsValue";
     mkReading "relativeY" "hasRelativeY" "relative-y" "TenthsValue";
     mkReading "placement" "hasPlacement" "placement" "AboveBelow";
     mkReading "startNote" "hasStartNote" "start-note" "StartNote";
     mkReading "trillStep" "hasTrillStep" "trill-step" "TrillStep";
     mkReading "twoNoteTurn" "hasTwoNoteTurn" "two-note-turn" "TwoNoteTurn";
     mkReading "accelerate" "hasAccelerate" "accelerate" "YesNo";
     mkReading "beats" "hasBeats" "beats" "TrillBeats";
     mkReading "secondBeat" "hasSecondBeat" "second-beat" "Percent";
     mkReading "lastBeat" "hasLastBeat" "last-beat" "Percent"]
    ["isTypeFound"].

(* core/elements/WedgeAttributes.cpp:13-105 *)
Definition wedgeAttributes : attributeClass :=
  mkAttributeClass "WedgeAttributes"
    ["hasType"]
    ["hasType"; "hasNumber"; "hasLineType"; "hasSpread"; "hasNiente"; "hasDashLength"; "hasSpaceLength"; "hasDefaultX"; "hasDefaultY"; "hasRelativeX"; "hasRelativeY"]
    [mkWriting "type" "type" "hasType";
     mkWriting "number" "number" "hasNumber";
     mkWriting "lineType" "line-type" "hasLineType";
     mkWriting "spread" "spread" "hasSpread";
     mkWriting "niente" "niente" "hasNiente";
     mkWriting "dashLength" "dash-length" "hasDashLength";
     mkWriting "spaceLength" "space-length" "hasSpaceLength";
     mkWriting "defaultX" "default-x" "hasDefaultX";
     mkWriting "defaultY" "default-y" "hasDefaultY";
     mkWriting "relativeX" "relative-x" "hasRelativeX";
     mkWriting "relativeY" "relative-y" "hasRelativeY"]
    [mkReading "type" "isTypeFound" "type" "WedgeType";
     mkReading "number" "hasNumber" "number" "NumberLevel";
     mkReading "lineType" "hasLineType" "line-type" "LineType";
     mkReading "spread" "hasSpread" "spread" "TenthsValue";
     mkReading "niente" "hasNiente" "niente" "YesNo";
     mkReading "dashLength" "hasDashLength" "dash-length" "TenthsValue";
     mkReading "spaceLength" "hasSpaceLength" "space-length" "TenthsValue";
     mkReading "defaultX" "hasDefaultX" "default-x" "TenthsValue";
     mkReading "defaultY" "hasDefaultY" "default-y" "TenthsValue";
     mkReading "relativeX" "hasRelativeX" "relative-x" "TenthsValue";
     mkReading "relativeY" "hasRelativeY" "relative-y" "TenthsValue"]
    ["isTypeFound"].

(* core/elements/WithBarAttributes.cpp:13-89 *)
Definition withBarAttributes : attributeClass :=
  mkAttributeClass "WithBarAttributes"
    []
    ["hasDefaultX"; "hasDefaultY"; "hasRelativeX"; "hasRelativeY"; "hasFontFamily"; "hasFontStyle"; "hasFontSize"; "hasFontWeight"; "hasPlacement"]
    [mkWriting "defaultX" "default-x" "hasDefaultX";
     mkWriting "defaultY" "default-y" "hasDefaultY";
     mkWriting "relativeX" "relative-x" "hasRelativeX";
     mkWriting "relativeY" "relative-y" "hasRelativeY";
     mkWriting "fontFamily" "font-family" "hasFontFamily";
     mkWriting "fontStyle" "font-style" "hasFontStyle";
     mkWriting "fontSize" "font-size" "hasFontSize";
     mkWriting "fontWeight" "font-weight" "hasFontWeight";
     mkWriting "placement" "placement" "hasPlacement"]
    [mkReading "defaultX" "hasDefaultX" "default-x" "TenthsValue";
     mkReading "defaultY" "hasDefaultY" "default-y" "TenthsValue";
     mkReading "relativeX" "hasRelativeX" "relative-x" "TenthsValue";
     mkReading "relativeY" "hasRelativeY" "relative-y" "TenthsValue";
     mkReading "fontFamily" "hasFontFamily" "font-family" "CommaSeparatedText";
     mkReading "fontStyle" "hasFontStyle" "font-style" "FontStyle";
     mkReading "fontSize" "hasFontSize" "font-size" "FontSize";
     mkReading "fontWeight" "hasFontWeight" "font-weight" "FontWeight";
     mkReading "placement" "hasPlacement" "placement" "AboveBelow"]
    [].

(* core/elements/WordsAttributes.cpp:13-141 *)
Definition wordsAttributes : attributeClass :=
  mkAttributeClass "WordsAttributes"
    []
    ["hasJustify"; "hasDefaultX"; "hasDefaultY"; "hasRelativeX"; "hasRelativeY"; "hasFontFamily"; "hasFontStyle"; "hasFontSize"; "hasFontWeight"; "hasHalign"; "hasUnderline"; "hasOverline"; "hasLineThrough"; "hasRotation"; "hasLetterSpacing"; "hasLineHeight"; "hasLang"; "hasSpace"; "hasEnclosure"]
    [mkWriting "justify" "justify" "hasJustify";
     mkWriting "defaultX" "default-x" "hasDefaultX";
     mkWriting "defaultY" "default-y" "hasDefaultY";
     mkWriting "relativeX" "relative-x" "hasRelativeX";
     mkWriting "relativeY" "relative-y" "hasRelativeY";
     mkWriting "fontFamily" "font-family" "hasFontFamily";
     mkWriting "fontStyle" "font-style" "hasFontStyle";
     mkWriting "fontSize" "font-size" "hasFontSize";
     mkWriting "fontWeight" "font-weight" "hasFontWeight";
     mkWriting "halign" "halign" "hasHalign";
     mkWriting "underline" "underline" "hasUnderline";
     mkWriting "overline" "overline" "hasOverline";
     mkWriting "lineThrough" "line-through" "hasLineThrough";
     mkWriting "rotation" "rotation" "hasRotation";
     mkWriting "letterSpacing" "letter-spacing" "hasLetterSpacing";
     mkWriting "lineHeight" "line-height" "hasLineHeight";
     mkWriting "lang" "xml:lang" "hasLang";
     mkWriting "space" "xml:space" "hasSpace";
     mkWriting "enclosure" "enclosure" "hasEnclosure"]
    [mkReading "justify" "hasJustify" "justify" "LeftCenterRight";
     mkReading "defaultX" "hasDefaultX" "default-x" "TenthsValue";
     mkReading "defaultY" "hasDefaultY" "default-y" "TenthsValue";
     mkReading "relativeX" "hasRelativeX" "relative-x" "TenthsValue";
     mkReading "relativeY" "hasRelativeY" "relative-y" "TenthsValue";
     mkReading "fontFamily" "hasFontFamily" "font-family" "CommaSeparatedText";
     mkReading "fontStyle" "hasFontStyle" "font-style" "FontStyle";
     mkReading "fontSize" "hasFontSize" "font-size" "FontSize";
     mkReading "fontWeight" "hasFontWeight" "font-weight" "FontWeight";
     mkReading "halign" "hasHalign" "halign" "LeftCenterRight";
     mkReading "underline" "hasUnderline" "underline" "NumberOfLines";
     mkReading "overline" "hasOverline" "overline" "NumberOfLines";
     mkReading "lineThrough" "hasLineThrough" "line-through" "NumberOfLines";
     mkReading "rotation" "hasRotation" "rotation" "RotationDegrees";
     mkReading "letterSpacing" "hasLetterSpacing" "letter-spacing" "NumberOrNormal";
     mkReading "lineHeight" "hasLineHeight" "line-height" "NumberOrNormal";
     mkReading "lang" "hasLang" "lang" "XmlLang";
     mkReading "lang" "hasLang" "xml:lang" "XmlLang";
     mkReading "space" "hasSpace" "space" "XmlSpace";
     mkReading "space" "hasSpace" "xml:space" "XmlSpace";
     mkReading "enclosure" "hasEnclosure" "enclosure" "EnclosureShape"]
    [].

(* The elements: class, name (streamName), attribute class if it has one, and
   whether fromXElementImpl passes the file's attributes to it.  Each is
   Sourcecode/private/mx/core/elements/<class>.cpp: hasAttributes,
   streamAttributes and streamName are at its head and fromXElementImpl at its
   end.  The classes whose name is only inherited by a group of children
   (ArticulationsChoice, EncodingChoice, TechnicalChoice, NoteheadTextChoice
   and LayoutGroup) are not elements of a file and are left out. *)
Definition elements : list elementClass :=
  [mkElement "Accent" "accent" (Some emptyPlacementAttributes) true;
   mkElement "Accidental" "accidental" (Some accidentalAttributes) true;
   mkElement "AccidentalMark" "accidental-mark" (Some accidentalMarkAttributes) true;
   mkElement "AccidentalText" "accidental-text" (Some accidentalTextAttributes) true;
   mkElement "Accord" "accord" (Some accordAttributes) true;
   mkElement "AccordionHigh" "accordion-high" None false;
   mkElement "AccordionLow" "accordion-low" None false;
   mkElement "AccordionMiddle" "accordion-middle" None false;
   mkElement "AccordionRegistration" "accordion-registration" (Some accordionRegistrationAttributes) true;
   mkElement "ActualNotes" "actual-notes" None false;
   mkElement "Alter" "alter" None false;
   mkElement "Appearance" "appearance" None false;
   mkElement "Arpeggiate" "arpeggiate" (Some arpeggiateAttributes) true;
   mkElement "Arrow" "arrow" (Some arrowAttributes) true;
   mkElement "ArrowDirection" "arrow-direction" None false;
   mkElement "ArrowStyle" "arrow-style" None false;
   mkElement "Articulations" "articulations" None false;
   mkElement "Artificial" "artificial" None false;
   mkElement "Backup" "backup" None false;
   mkElement "BarStyle" "bar-style" (Some barStyleAttributes) true;
   mkElement "Barline" "barline" (Some barlineAttributes) true;
   mkElement "Barre" "barre" (Some barreAttributes) true;
   mkElement "BasePitch" "base-pitch" None false;
   mkElement "Bass" "bass" None false;
   mkElement "BassAlter" "bass-alter" (Some bassAlterAttributes) true;
   mkElement "BassStep" "bass-step" (Some bassStepAttributes) true;
   mkElement "Beam" "beam" (Some beamAttributes) true;
   mkElement "BeatRepeat" "beat-repeat" (Some beatRepeatAttributes) true;
   mkElement "BeatType" "beat-type" None false;
   mkElement "BeatUnit" "beat-unit" None false;
   mkElement "BeatUnitDot" "beat-unit-dot" None false;
   mkElement "Beater" "beater" (Some beaterAttributes) true;
   mkElement "Beats" "beats" None false;
   mkElement "Bend" "bend" (Some bendAttributes) true;
   mkElement "BendAlter" "bend-alter" None false;
   mkElement "Bookmark" "bookmark" (Some bookmarkAttributes) true;
   mkElement "BottomMargin" "bottom-margin" None false;
   mkElement "Bracket" "bracket" (Some bracketAttributes) true;
   mkElement "BreathMark" "breath-mark" (Some breathMarkAttributes) true;
   mkElement "Caesura" "caesura" (Some emptyPlacementAttributes) true;
   mkElement "Cancel" "cancel" (Some cancelAttributes) true;
   mkElement "Capo" "capo" None false;
   mkElement "Chord" "chord" None false;
   mkElement "Chromatic" "chromatic" None false;
   mkElement "CircularArrow" "circular-arrow" None false;
   mkElement "Clef" "clef" (Some clefAttributes) true;
   mkElement "ClefOctaveChange" "clef-octave-change" None false;
   mkElement "Coda" "coda" (Some emptyPrintObjectStyleAlignAttributes) true;
   mkElement "Creator" "creator" (Some creatorAttributes) true;
   mkElement "Credit" "credit" (Some creditAttributes) true;
   mkElement "CreditImage" "credit-image" (Some creditImageAttributes) true;
   mkElement "CreditType" "credit-type" None false;
   mkElement "CreditWords" "credit-words" (Some creditWordsAttributes) true;
   mkElement "Cue" "cue" None false;
   mkElement "Damp" "damp" (Some emptyPrintObjectStyleAlignAttributes) true;
   mkElement "DampAll" "damp-all" (Some emptyPrintObjectStyleAlignAttributes) true;
   mkElement "Dashes" "dashes" (Some dashesAttributes) true;
   mkElement "Defaults" "defaults" None false;
   mkElement "Degree" "degree" (Some degreeAttributes) true;
   mkElement "DegreeAlter" "degree-alter" (Some degreeAlterAttributes) true;
   mkElement "DegreeType" "degree-type" (Some degreeTypeAttributes) true;
   mkElement "DegreeValue" "degree-value" (Some degreeValueAttributes) true;
   mkElement "DelayedInvertedTurn" "delayed-inverted-turn" (Some delayedInvertedTurnAttributes) true;
   mkElement "DelayedTurn" "delayed-turn" (Some delayedTurnAttributes) true;
   mkElement "DetachedLegato" "detached-legato" (Some emptyPlacementAttributes) true;
   mkElement "Diatonic" "diatonic" None false;
   mkElement "Direction" "direction" (Some directionAttributes) true;
   mkElement "DirectionType" "direction-type" None false;
   mkElement "Directive" "directive" (Some directiveAttributes) true;
   mkElement "DisplayOctave" "display-octave" None false;
   mkElement "DisplayStep" "display-step" None false;
   mkElement "DisplayText" "display-text" (Some displayTextAttributes) true;
   mkElement "Distance" "distance" (Some distanceAttributes) true;
   mkElement "Divisions" "divisions" None false;
   mkElement "Doit" "doit" (Some emptyLineAttributes) true;
   mkElement "Dot" "dot" (Some emptyPlacementAttributes) true;
   mkElement "Double" "double" None false;
   mkElement "DoubleTongue" "double-tongue" (Some emptyPlacementAttributes) true;
   mkElement "DownBow" "down-bow" (Some emptyPlacementAttributes) true;
   mkElement "Duration" "duration" None false;
   mkElement "Dynamics" "dynamics" (Some dynamicsAttributes) true;
   mkElement "Effect" "effect" None false;
   mkElement "Elevation" "elevation" None false;
   mkElement "Elision" "elision" (Some elisionAttributes) true;
   mkElement "Encoder" "encoder" (Some encoderAttributes) true;
   mkElement "Encoding" "encoding" None false;
   mkElement "EncodingDate" "encoding-date" None false;
   mkElement "EncodingDescription" "encoding-description" None false;
   mkElement "EndLine" "end-line" None false;
   mkElement "EndParagraph" "end-paragraph" None false;
   mkElement "Ending" "ending" (Some endingAttributes) true;
   mkElement "Ensemble" "ensemble" None false;
   mkElement "Extend" "extend" (Some extendAttributes) true;
   mkElement "Eyeglasses" "eyeglasses" (Some emptyPrintObjectStyleAlignAttributes) true;
   mkElement "Falloff" "falloff" (Some emptyLineAttributes) true;
   mkElement "Feature" "feature" (Some featureAttributes) true;
   mkElement "Fermata" "fermata" (Some fermataAttributes) true;
   mkElement "Fifths" "fifths" None false;
   mkElement "Figure" "figure" None false;
   mkElement "FigureNumber" "figure-number" (Some figureNumberAttributes) true;
   mkElement "FiguredBass" "figured-bass" (Some figuredBassAttributes) true;
   mkElement "Fingering" "fingering" (Some fingeringAttributes) true;
   mkElement "Fingernails" "fingernails" (Some emptyPlacementAttributes) true;
   mkElement "FirstFret" "first-fret" (Some firstFretAttributes) true;
   mkElement "Footnote" "footnote" (Some footnoteAttributes) true;
   mkElement "Forward" "forward" None false;
   mkElement "Frame" "frame" (Some frameAttributes) true;
   mkElement "FrameFrets" "frame-frets" None false;
   mkElement "FrameNote" "frame-note" None false;
   mkElement "FrameStrings" "frame-strings" None false;
   mkElement "Fret" "fret" (Some fretAttributes) true;
   mkElement "Function" "function" (Some functionAttributes) true;
   mkElement "Glass" "glass" None false;
   mkElement "Glissando" "glissando" (Some glissandoAttributes) true;
   mkElement "Grace" "grace" (Some graceAttributes) true;
   mkElement "Group" "group" None false;
   mkElement "GroupAbbreviation" "group-abbreviation" (Some groupAbbreviationAttributes) true;
   mkElement "GroupAbbreviationDisplay" "group-abbreviation-display" (Some groupAbbreviationDisplayAttributes) true;
   mkElement "GroupBarline" "group-barline" (Some groupBarlineAttributes) true;
   mkElement "GroupName" "group-name" (Some groupNameAttributes) true;
   mkElement "GroupNameDisplay" "group-name-display" (Some groupNameDisplayAttributes) true;
   mkElement "GroupSymbol" "group-symbol" (Some groupSymbolAttributes) true;
   mkElement "GroupTime" "group-time" None false;
   mkElement "Grouping" "grouping" (Some groupingAttributes) true;
   mkElement "HammerOn" "hammer-on" (Some hammerOnAttributes) true;
   mkElement "Handbell" "handbell" (Some handbellAttributes) true;
   mkElement "Harmonic" "harmonic" (Some harmonicAttributes) true;
   mkElement "Harmony" "harmony" (Some harmonyAttributes) true;
   mkElement "HarpPedals" "harp-pedals" (Some harpPedalsAttributes) true;
   mkElement "Heel" "heel" (Some heelAttributes) true;
   mkElement "Hole" "hole" (Some holeAttributes) true;
   mkElement "HoleClosed" "hole-closed" (Some holeClosedAttributes) false;
   mkElement "HoleShape" "hole-shape" None false;
   mkElement "HoleType" "hole-type" None false;
   mkElement "Humming" "humming" None false;
   mkElement "Identification" "identification" None false;
   mkElement "Image" "image" (Some imageAttributes) true;
   mkElement "Instrument" "instrument" (Some instrumentAttributes) true;
   mkElement "InstrumentAbbreviation" "instrument-abbreviation" None false;
   mkElement "InstrumentName" "instrument-name" None false;
   mkElement "InstrumentSound" "instrument-sound" None false;
   mkElement "Instruments" "instruments" None false;
   mkElement "Interchangeable" "interchangeable" (Some interchangeableAttributes) true;
   mkElement "Inversion" "inversion" (Some inversionAttributes) true;
   mkElement "InvertedMordent" "inverted-mordent" (Some invertedMordentAttributes) true;
   mkElement "InvertedTurn" "inverted-turn" (Some invertedTurnAttributes) true;
   mkElement "Ipa" "ipa" None false;
   mkElement "Key" "key" (Some keyAttributes) true;
   mkElement "KeyAccidental" "key-accidental" None false;
   mkElement "KeyAlter" "key-alter" None false;
   mkElement "KeyOctave" "key-octave" (Some keyOctaveAttributes) true;
   mkElement "KeyStep" "key-step" None false;
   mkElement "Kind" "kind" (Some kindAttributes) true;
   mkElement "Laughing" "laughing" None false;
   mkElement "LeftDivider" "left-divider" (Some emptyPrintObjectStyleAlignAttributes) true;
   mkElement "LeftMargin" "left-margin" None false;
   mkElement "Level" "level" (Some levelAttributes) true;
   mkElement "Line" "line" None false;
   mkElement "LineWidth" "line-width" (Some lineWidthAttributes) true;
   mkElement "Link" "link" (Some linkAttributes) true;
   mkElement "Lyric" "lyric" (Some lyricAttributes) true;
   mkElement "LyricFont" "lyric-font" (Some lyricFontAttributes) true;
   mkElement "LyricLanguage" "lyric-language" (Some lyricLanguageAttributes) true;
   mkElement "MeasureDistance" "measure-distance" None false;
   mkElement "MeasureLayout" "measure-layout" None false;
   mkElement "MeasureNumbering" "measure-numbering" (Some measureNumberingAttributes) true;
   mkElement "MeasureRepeat" "measure-repeat" (Some measureRepeatAttributes) true;
   mkElement "MeasureStyle" "measure-style" (Some measureStyleAttributes) true;
   mkElement "Membrane" "membrane" None false;
   mkElement "Metal" "metal" None false;
   mkElement "Metronome" "metronome" (Some metronomeAttributes) true;
   mkElement "MetronomeBeam" "metronome-beam" (Some metronomeBeamAttributes) true;
   mkElement "MetronomeDot" "metronome-dot" None false;
   mkElement "MetronomeNote" "metronome-note" None false;
   mkElement "MetronomeRelation" "metronome-relation" None false;
   mkElement "MetronomeTuplet" "metronome-tuplet" (Some metronomeTupletAttributes) true;
   mkElement "MetronomeType" "metronome-type" None false;
   mkElement "MidiBank" "midi-bank" None false;
   mkElement "MidiChannel" "midi-channel" None false;
   mkElement "MidiDevice" "midi-device" (Some midiDeviceAttributes) true;
   mkElement "MidiInstrument" "midi-instrument" (Some midiInstrumentAttributes) true;
   mkElement "MidiName" "midi-name" None false;
   mkElement "MidiProgram" "midi-program" None false;
   mkElement "MidiUnpitched" "midi-unpitched" None false;
   mkElement "Millimeters" "millimeters" None false;
   mkElement "Miscellaneous" "miscellaneous" None false;
   mkElement "MiscellaneousField" "miscellaneous-field" (Some miscellaneousFieldAttributes) true;
   mkElement "Mode" "mode" None false;
   mkElement "Mordent" "mordent" (Some mordentAttributes) true;
   mkElement "MovementNumber" "movement-number" None false;
   mkElement "MovementTitle" "movement-title" None false;
   mkElement "MultipleRest" "multiple-rest" (Some multipleRestAttributes) true;
   mkElement "MusicFont" "music-font" (Some emptyFontAttributes) true;
   mkElement "Mute" "mute" None false;
   mkElement "Natural" "natural" None false;
   mkElement "NonArpeggiate" "non-arpeggiate" (Some nonArpeggiateAttributes) true;
   mkElement "NormalDot" "normal-dot" None false;
   mkElement "NormalNotes" "normal-notes" None false;
   mkElement "NormalType" "normal-type" None false;
   mkElement "Notations" "notations" (Some notationsAttributes) true;
   mkElement "Note" "note" (Some noteAttributes) true;
   mkElement "NoteSize" "note-size" (Some noteSizeAttributes) true;
   mkElement "Notehead" "notehead" (Some noteheadAttributes) true;
   mkElement "NoteheadText" "notehead-text" None false;
   mkElement "Octave" "octave" None false;
   mkElement "OctaveChange" "octave-change" None false;
   mkElement "OctaveShift" "octave-shift" (Some octaveShiftAttributes) true;
   mkElement "Offset" "offset" (Some offsetAttributes) true;
   mkElement "OpenString" "open-string" (Some emptyPlacementAttributes) true;
   mkElement "Opus" "opus" (Some opusAttributes) true;
   mkElement "Ornaments" "ornaments" None false;
   mkElement "OtherAppearance" "other-appearance" (Some otherAppearanceAttributes) true;
   mkElement "OtherArticulation" "other-articulation" (Some otherArticulationAttributes) true;
   mkElement "OtherDirection" "other-direction" (Some otherDirectionAttributes) true;
   mkElement "OtherNotation" "other-notation" (Some otherNotationAttributes) true;
   mkElement "OtherOrnament" "other-ornament" (Some otherOrnamentAttributes) true;
   mkElement "OtherPercussion" "other-percussion" None false;
   mkElement "OtherPlay" "other-play" (Some otherPlayAttributes) true;
   mkElement "OtherTechnical" "other-technical" (Some otherTechnicalAttributes) true;
   mkElement "PageHeight" "page-height" None false;
   mkElement "PageLayout" "page-layout" None false;
   mkElement "PageMargins" "page-margins" (Some pageMarginsAttributes) true;
   mkElement "PageWidth" "page-width" None false;
   mkElement "Pan" "pan" None false;
   mkElement "PartAbbreviation" "part-abbreviation" (Some partAbbreviationAttributes) true;
   mkElement "PartAbbreviationDisplay" "part-abbreviation-display" (Some partAbbreviationDisplayAttributes) true;
   mkElement "PartGroup" "part-group" (Some partGroupAttributes) true;
   mkElement "PartList" "part-list" None false;
   mkElement "PartName" "part-name" (Some partNameAttributes) true;
   mkElement "PartNameDisplay" "part-name-display" (Some partNameDisplayAttributes) true;
   mkElement "PartSymbol" "part-symbol" (Some partSymbolAttributes) true;
   mkElement "PartwiseMeasure" "measure" (Some measureAttributes) true;
   mkElement "PartwisePart" "part" (Some partAttributes) true;
   mkElement "Pedal" "pedal" (Some pedalAttributes) true;
   mkElement "PedalAlter" "pedal-alter" None false;
   mkElement "PedalStep" "pedal-step" None false;
   mkElement "PedalTuning" "pedal-tuning" None false;
   mkElement "PerMinute" "per-minute" (Some perMinuteAttributes) true;
   mkElement "Percussion" "percussion" (Some percussionAttributes) true;
   mkElement "Pitch" "pitch" None false;
   mkElement "Pitched" "pitched" None false;
   mkElement "Play" "play" (Some playAttributes) false;
   mkElement "Plop" "plop" (Some emptyLineAttributes) true;
   mkElement "Pluck" "pluck" (Some pluckAttributes) true;
   mkElement "PreBend" "pre-bend" None false;
   mkElement "Prefix" "prefix" (Some prefixAttributes) true;
   mkElement "PrincipalVoice" "principal-voice" (Some principalVoiceAttributes) true;
   mkElement "Print" "print" (Some printAttributes) true;
   mkElement "Properties" "attributes" None false;
   mkElement "PullOff" "pull-off" (Some pullOffAttributes) true;
   mkElement "Rehearsal" "rehearsal" (Some rehearsalAttributes) true;
   mkElement "Relation" "relation" (Some relationAttributes) true;
   mkElement "Release" "release" None false;
   mkElement "Repeat" "repeat" (Some repeatAttributes) true;
   mkElement "Rest" "rest" (Some restAttributes) true;
   mkElement "RightDivider" "right-divider" (Some emptyPrintObjectStyleAlignAttributes) true;
   mkElement "RightMargin" "right-margin" None false;
   mkElement "Rights" "rights" (Some rightsAttributes) true;
   mkElement "Root" "root" None false;
   mkElement "RootAlter" "root-alter" (Some rootAlterAttributes) true;
   mkElement "RootStep" "root-step" (Some rootStepAttributes) true;
   mkElement "Scaling" "scaling" None false;
   mkElement "Schleifer" "schleifer" (Some emptyPlacementAttributes) true;
   mkElement "Scoop" "scoop" (Some emptyLineAttributes) true;
   mkElement "Scordatura" "scordatura" None false;
   mkElement "ScoreInstrument" "score-instrument" (Some scoreInstrumentAttributes) true;
   mkElement "ScorePart" "score-part" (Some scorePartAttributes) true;
   mkElement "ScorePartwise" "score-partwise" (Some scorePartwiseAttributes) true;
   mkElement "ScoreTimewise" "score-timewise" (Some scoreTimewiseAttributes) true;
   mkElement "Segno" "segno" (Some emptyPrintObjectStyleAlignAttributes) true;
   mkElement "SemiPitched" "semi-pitched" None false;
   mkElement "SenzaMisura" "senza-misura" None false;
   mkElement "Shake" "shake" (Some emptyTrillSoundAttributes) true;
   mkElement "Sign" "sign" None false;
   mkElement "Slash" "slash" (Some slashAttributes) true;
   mkElement "SlashDot" "slash-dot" None false;
   mkElement "SlashType" "slash-type" None false;
   mkElement "Slide" "slide" (Some slideAttributes) true;
   mkElement "Slur" "slur" (Some slurAttributes) true;
   mkElement "SnapPizzicato" "snap-pizzicato" (Some emptyPlacementAttributes) true;
   mkElement "Software" "software" None false;
   mkElement "Solo" "solo" None false;
   mkElement "Sound" "sound" (Some soundAttributes) true;
   mkElement "SoundingPitch" "sounding-pitch" None false;
   mkElement "Source" "source" None false;
   mkElement "Spiccato" "spiccato" (Some emptyPlacementAttributes) true;
   mkElement "Staccatissimo" "staccatissimo" (Some emptyPlacementAttributes) true;
   mkElement "Staccato" "staccato" (Some emptyPlacementAttributes) true;
   mkElement "Staff" "staff" None false;
   mkElement "StaffDetails" "staff-details" (Some staffDetailsAttributes) true;
   mkElement "StaffDistance" "staff-distance" None false;
   mkElement "StaffLayout" "staff-layout" (Some staffLayoutAttributes) true;
   mkElement "StaffLines" "staff-lines" None false;
   mkElement "StaffSize" "staff-size" None false;
   mkElement "StaffTuning" "staff-tuning" (Some staffTuningAttributes) true;
   mkElement "StaffType" "staff-type" None false;
   mkElement "Staves" "staves" None false;
   mkElement "Stem" "stem" (Some stemAttributes) true;
   mkElement "Step" "step" None false;
   mkElement "Stick" "stick" (Some stickAttributes) true;
   mkElement "StickLocation" "stick-location" None false;
   mkElement "StickMaterial" "stick-material" None false;
   mkElement "StickType" "stick-type" None false;
   mkElement "Stopped" "stopped" (Some emptyPlacementAttributes) true;
   mkElement "Stress" "stress" (Some emptyPlacementAttributes) true;
   mkElement "String" "string" (Some stringAttributes) true;
   mkElement "StringMute" "string-mute" (Some stringMuteAttributes) true;
   mkElement "StrongAccent" "strong-accent" (Some strongAccentAttributes) true;
   mkElement "Suffix" "suffix" (Some suffixAttributes) true;
   mkElement "Supports" "supports" (Some supportsAttributes) true;
   mkElement "Syllabic" "syllabic" None false;
   mkElement "SystemDistance" "system-distance" None false;
   mkElement "SystemDividers" "system-dividers" None false;
   mkElement "SystemLayout" "system-layout" None false;
   mkElement "SystemMargins" "system-margins" None false;
   mkElement "Tap" "tap" (Some tapAttributes) true;
   mkElement "Technical" "technical" None false;
   mkElement "Tenths" "tenths" None false;
   mkElement "Tenuto" "tenuto" (Some emptyPlacementAttributes) true;
   mkElement "Text" "text" (Some textAttributes) true;
   mkElement "ThumbPosition" "thumb-position" (Some emptyPlacementAttributes) true;
   mkElement "Tie" "tie" (Some tieAttributes) true;
   mkElement "Tied" "tied" (Some tiedAttributes) true;
   mkElement "Time" "time" (Some timeAttributes) true;
   mkElement "TimeModification" "time-modification" None false;
   mkElement "TimeRelation" "time-relation" None false;
   mkElement "TimewiseMeasure" "measure" (Some measureAttributes) true;
   mkElement "TimewisePart" "part" (Some partAttributes) true;
   mkElement "Timpani" "timpani" None false;
   mkElement "Toe" "toe" (Some toeAttributes) true;
   mkElement "TopMargin" "top-margin" None false;
   mkElement "TopSystemDistance" "top-system-distance" None false;
   mkElement "TouchingPitch" "touching-pitch" None false;
   mkElement "Transpose" "transpose" (Some transposeAttributes) true;
   mkElement "Tremolo" "tremolo" (Some tremoloAttributes) true;
   mkElement "TrillMark" "trill-mark" (Some emptyTrillSoundAttributes) true;
   mkElement "TripleTongue" "triple-tongue" (Some emptyPlacementAttributes) true;
   mkElement "TuningAlter" "tuning-alter" None false;
   mkElement "TuningOctave" "tuning-octave" None false;
   mkElement "TuningStep" "tuning-step" None false;
   mkElement "Tuplet" "tuplet" (Some tupletAttributes) true;
   mkElement "TupletActual" "tuplet-actual" None false;
   mkElement "TupletDot" "tuplet-dot" (Some tupletDotAttributes) true;
   mkElement "TupletNormal" "tuplet-normal" None false;
   mkElement "TupletNumber" "tuplet-number" (Some tupletNumberAttributes) true;
   mkElement "TupletType" "tuplet-type" (Some tupletTypeAttributes) true;
   mkElement "Turn" "turn" (Some turnAttributes) true;
   mkElement "Type" "type" (Some typeAttributes) true;
   mkElement "Unpitched" "unpitched" None false;
   mkElement "Unstress" "unstress" (Some emptyPlacementAttributes) true;
   mkElement "UpBow" "up-bow" (Some emptyPlacementAttributes) true;
   mkElement "VerticalTurn" "vertical-turn" (Some emptyTrillSoundAttributes) true;
   mkElement "VirtualInstrument" "virtual-instrument" None false;
   mkElement "VirtualLibrary" "virtual-library" None false;
   mkElement "VirtualName" "virtual-name" None false;
   mkElement "Voice" "voice" None false;
   mkElement "Volume" "volume" None false;
   mkElement "WavyLine" "wavy-line" (Some wavyLineAttributes) true;
   mkElement "Wedge" "wedge" (Some wedgeAttributes) true;
   mkElement "WithBar" "with-bar" (Some withBarAttributes) true;
   mkElement "Wood" "wood" None false;
   mkElement "WordFont" "word-font" (Some emptyFontAttributes) true;
   mkElement "Words" "words" (Some wordsAttributes) true;
   mkElement "Work" "work" None false;
   mkElement "WorkNumber" "work-number" None false;
   mkElement "WorkTitle" "work-title" None false].
