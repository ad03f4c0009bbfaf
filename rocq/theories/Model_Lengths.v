(** Model of the lengths the style sheets write: in hwp5odt (xsl/odt/common.xsl)
    and in hwp5html (xsl/hwp5css-common.xsl).  These are the functions that
    Model_Opendoc and Model_Html take as an argument.

    XPath numbers are floating point numbers of 53 bits, rounded to the nearest,
    to the even one of two.  Simplifications: exponents are not limited (the
    numbers here are far from the limits), there are no infinities (nothing is
    divided by zero here), there is one zero; attributes are texts of integers,
    other texts are NaN (the attributes used are integers).  How a number is
    written (external: the XSLT processor) is a function. *)
From Coq Require Import ZArith QArith Qround String List Bool.
From Verif Require Import Base Model_Text Model_XmlText Model_Plaintext Model_Html.
Import ListNotations.
Open Scope string_scope.
Open Scope list_scope.
Open Scope Z_scope.

(** ** XPath numbers *)

(** [n / d] rounded to the nearest, to the even one of two *)
Definition half_even (n d : Z) : Z :=
  let q := n / d in
  let r := n mod d in
  if 2 * r <? d then q else if d <? 2 * r then q + 1 else if Z.even q then q else q + 1.
(** The nearest number with 53 bits *)
Definition double (x : Q) : Q :=
  let n := Qnum x in
  let d := QDen x in
  if n =? 0 then 0%Q
  else
    let e0 := Z.log2 (Z.abs n) - Z.log2 d in
    let e := if d * 2 ^ Z.max 0 e0 <=? Z.abs n * 2 ^ Z.max 0 (- e0) then e0 - 52 else e0 - 53 in
    Qmake (half_even (n * 2 ^ Z.max 0 (- e)) (d * 2 ^ Z.max 0 e) * 2 ^ Z.max 0 e) (Z.to_pos (2 ^ Z.max 0 (- e))).

(** A number, None for NaN *)
Notation xnumber := (option Q) (only parsing).
Definition xop (f : Q -> Q -> Q) (a b : xnumber) : xnumber :=
  match a, b with Some x, Some y => Some (double (f x y)) | _, _ => None end.
Definition xmul : xnumber -> xnumber -> xnumber := xop Qmult.
Definition xdiv : xnumber -> xnumber -> xnumber := xop Qdiv.
Definition xplus : xnumber -> xnumber -> xnumber := xop Qplus.
Definition xminus : xnumber -> xnumber -> xnumber := xop Qminus.
(** [floor(a)]; [round(a)], up if there are two *)
Definition xfloor (a : xnumber) : xnumber := option_map (fun x => inject_Z (Qfloor x)) a.
Definition xround (a : xnumber) : xnumber := option_map (fun x => inject_Z (Qfloor (x + (1 # 2)))) a.
(** A number in a style sheet *)
Definition lit (x : Q) : xnumber := Some (double x).
(** [number(@s)] *)
Definition at_ (s : string) (x : xnode) : xnumber := option_map (fun n => double (inject_Z n)) (number_of s x).
(** [number(child/@s)] *)
Definition at_child (child s : string) (x : xnode) : xnumber :=
  match children_named child x with c :: _ => at_ s c | [] => None end.

Section Lengths.
  (** [value-of] a number that is not NaN *)
  Variable show : Q -> list Z.
  (** What the style sheets compute of other properties *)
  Variable other : string -> xnode -> list Z.

  Definition value_of_number (a : xnumber) : list Z := match a with Some x => show x | None => zs "NaN" end.
  Definition in_unit (u : string) (a : xnumber) : list Z := value_of_number a ++ zs u.
  Definition choose (k : string) (table : list (string * (xnode -> list Z))) (x : xnode) : list Z :=
    match find (fun p => String.eqb k (fst p)) table with Some (_, f) => f x | None => other k x end.

  (** ** hwp5odt *)

  (** [round(number(@s) div 7200 * 2.54 * 100) div 100], cm *)
  Definition odt_cm (s : string) (x : xnode) : list Z :=
    in_unit "cm" (xdiv (xround (xmul (xmul (xdiv (at_ s x) (lit 7200)) (lit (254 # 100))) (lit 100))) (lit 100)).
  (** [round(@s div 7200 * 2.54 * 10 * 100) div 100], mm *)
  Definition odt_mm (s : string) (x : xnode) : list Z :=
    in_unit "mm" (xdiv (xround (xmul (xmul (xmul (xdiv (at_ s x) (lit 7200)) (lit (254 # 100))) (lit 10)) (lit 100))) (lit 100)).
  (** [round(@s div 7200 * 25.4 * 100) div 100], mm *)
  Definition odt_mm' (s : string) (x : xnode) : list Z :=
    in_unit "mm" (xdiv (xround (xmul (xmul (xdiv (at_ s x) (lit 7200)) (lit (254 # 10))) (lit 100))) (lit 100)).
  (** [number(@s) div 200], pt *)
  Definition odt_pt (s : string) (x : xnode) : list Z := in_unit "pt" (xdiv (at_ s x) (lit 200)).
  (** common.xsl 436-444 *)
  Definition odt_margin_left (x : xnode) : list Z :=
    if compares (fun n => n <? 0) "indent" x
    then in_unit "pt" (xdiv (xminus (at_ "doubled-margin-left" x) (at_ "indent" x)) (lit 200))
    else in_unit "pt" (xdiv (at_ "doubled-margin-left" x) (lit 200)).
  (** 561-583 *)
  Definition odt_size (lang : string) (x : xnode) : list Z :=
    in_unit "pt" (xdiv (xdiv (xmul (at_ "basesize" x) (at_child "RelativeSize" lang x)) (lit 100)) (lit 100)).

  Definition odt_measure (k : string) (x : xnode) : list Z :=
    choose k
      [("text-indent", odt_pt "indent"); ("margin-left", odt_margin_left); ("margin-right", odt_pt "doubled-margin-right");
       ("margin-top", odt_pt "doubled-margin-top"); ("margin-bottom", odt_pt "doubled-margin-bottom"); (** 436-447 *)
       ("line-ratio", fun x => in_unit "%" (at_ "linespacing" x)); ("line-fixed", odt_pt "linespacing"); (** 475-498 *)
       ("line-space", fun x => in_unit "pt" (xdiv (xdiv (at_ "linespacing" x) (lit 200)) (lit 2))); (** 510-512 *)
       ("font-size-en", odt_size "en"); ("font-size-ko", odt_size "ko"); ("font-size-other", odt_size "other");
       ("top-offset", odt_cm "top-offset"); ("left-offset", odt_cm "left-offset"); ("right-offset", odt_cm "right-offset");
       ("bottom-offset", odt_cm "bottom-offset"); ("height", odt_cm "height"); (** 334-347 *)
       ("width", fun x => if named_node "PageDef" x then odt_cm "width" x else odt_mm "width" x); (** 334-343, 1135 *)
       ("table-margin-left", odt_mm "margin-left"); ("table-margin-right", odt_mm "margin-right");
       ("table-margin-top", odt_mm "margin-top"); ("table-margin-bottom", odt_mm "margin-bottom"); (** 1140-1154 *)
       ("padding-left", odt_mm "padding-left"); ("padding-right", odt_mm "padding-right");
       ("padding-top", odt_mm "padding-top"); ("padding-bottom", odt_mm "padding-bottom"); (** 1020-1023 *)
       ("shape-margin-left", odt_mm' "margin-left"); ("shape-margin-right", odt_mm' "margin-right");
       ("shape-margin-top", odt_mm' "margin-top"); ("shape-margin-bottom", odt_mm' "margin-bottom"); (** 1172-1176 *)
       ("stroke-width", odt_mm' "width") (** 1371-1373 *)] x.

  (** ** hwp5html *)

  (** hwpunit-to-mm, hwp5css-common.xsl 977-981 *)
  Definition css_mm (a : xnumber) : list Z :=
    in_unit "mm" (xdiv (xfloor (xplus (xmul (xmul (xdiv a (lit 100)) (lit (352777778 # 1000000000))) (lit 100)) (lit (1 # 2)))) (lit 100)).
  (** hwpunit-to-pt, 983-987 *)
  Definition css_pt (a : xnumber) : list Z := in_unit "pt" (xdiv a (lit 100)).
  (** 322-334 *)
  Definition css_size (lang : string) (x : xnode) : list Z :=
    css_pt (xdiv (xmul (at_ "basesize" x) (at_child "RelativeSize" lang x)) (lit 100)).
  Definition css_half (s : string) (x : xnode) : list Z := css_pt (xdiv (at_ s x) (lit 2)).

  Definition css_measure (k : string) (x : xnode) : list Z :=
    choose k
      [("margin", fun x => css_half "doubled-margin-top" x ++ zs " " ++ css_half "doubled-margin-right" x ++ zs " " ++
                           css_half "doubled-margin-bottom" x ++ zs " " ++ css_half "doubled-margin-left" x); (** 93-113 *)
       ("text-indent", css_half "indent"); (** 864-873 *)
       ("padding-left", fun x => css_pt (xmul (xdiv (at_ "indent" x) (lit 2)) (lit (-1)))); (** 875-883 *)
       ("min-height", fun x => in_unit "em" (xdiv (at_ "linespacing" x) (lit 100)));
       ("line-height", fun x => in_unit "" (xdiv (at_ "linespacing" x) (lit 100))); (** 117-140 *)
       ("bullet-width", fun x => if compares (Z.eqb 0) "width" x then zs "1em" else css_pt (at_ "width" x));
       ("bullet-space", fun x => if compares (Z.eqb 0) "width" x then in_unit "em" (xdiv (at_ "space" x) (lit 100))
                                 else css_pt (xdiv (xmul (at_ "width" x) (at_ "space" x)) (lit 100))); (** 165-200 *)
       ("font-size-ko", css_size "ko"); ("font-size-en", css_size "en"); ("font-size-cn", css_size "cn"); ("font-size-jp", css_size "jp");
       ("font-size-other", css_size "other"); ("font-size-symbol", css_size "symbol"); ("font-size-user", css_size "user"); (** 240-283 *)
       ("width", fun x => css_mm (at_ "width" x)); ("height", fun x => css_mm (at_ "height" x));
       ("top-offset", fun x => css_mm (at_ "top-offset" x)); ("right-offset", fun x => css_mm (at_ "right-offset" x));
       ("bottom-offset", fun x => css_mm (at_ "bottom-offset" x)); ("left-offset", fun x => css_mm (at_ "left-offset" x));
       ("header-offset", fun x => css_mm (at_ "header-offset" x)); ("footer-offset", fun x => css_mm (at_ "footer-offset" x)); (** 645-774 *)
       ("area-width", fun x => css_mm (if named_node "Header" x then at_child "HeaderParagraphList" "width" x else at_child "FooterParagraphList" "width" x));
       ("area-height", fun x => css_mm (if named_node "Header" x then at_child "HeaderParagraphList" "height" x else at_child "FooterParagraphList" "height" x))
         (** 776-846 *)] x.
End Lengths.
