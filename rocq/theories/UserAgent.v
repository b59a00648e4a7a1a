(** Model of victor/src/style/user_agent.css, the style sheet of cascade.rs:16-22, and of the matching of
    its selectors (selectors.rs:13-25 with the [Element] interface of StyleSelectors.v). *)
From Coq Require Import QArith.
From Verif Require Import Base Dom StyleValues StyleProperties StyleCascade StyleSelectors.

(** The parts of its selectors as the selectors crate parses them: [Component::LocalName],
    [AttributeInNoNamespaceExists] and [AttributeInNoNamespace] with the operator '='.  There is no default
    namespace, as selectors.rs:59-62 has the [default_namespace] of the trait, which is [None]. *)
Inductive part :=
| LocalName (name : bytes)
| AttributeExists (name : bytes)
| AttributeEquals (name value : bytes) (c : case_sensitivity).

Section Selectors.
(** All other selectors, of author style sheets *)
Variable other : Type.
Variable other_specificity : other -> N.
Variable other_matches : other -> document -> nat -> bool.
(** The [Selector]s of style/selectors.rs:13-62 *)
Inductive ua_selector := Compound (parts : list part) | Other (o : other).

(** [Selector::specificity]: ten bits each for ids, attributes and classes, and names; cascade.rs:50 *)
Definition part_specificity (p : part) : N :=
  match p with LocalName _ => 1 | AttributeExists _ => 1024 | AttributeEquals _ _ _ => 1024 end.
(** [Selector::specificity]: cascade.rs:50 *)
Definition ua_specificity (s : ua_selector) : N :=
  match s with Compound l => fold_right (fun p n => (part_specificity p + n)%N) 0%N l | Other o => other_specificity o end.

(** [matches_simple_selector] of the selectors crate on these; a panic, for what is not an element, is [false]
    as rules are only matched with elements (cascade.rs:91).  Names are in lower case here, so that
    [is_html_element_in_html_document] has no influence. *)
Definition is_true (r : result bool) : bool := match r with Ok b => b | _ => false end.
(** selectors.rs:13-25, for one simple selector *)
Definition part_matches (p : part) (d : document) (n : nat) : bool :=
  match p with
  | LocalName name => match local_name d n with Ok l => bytes_eqb l name | _ => false end
  | AttributeExists name => is_true (attr_matches d n (Some []) name (fun _ => true))
  | AttributeEquals name value c => is_true (attr_matches d n (Some []) name (case_eq c value))
  end.
(** selectors.rs:13-25 *)
Definition ua_matches (s : ua_selector) (d : document) (n : nat) : bool :=
  match s with Compound l => forallb (fun p => part_matches p d n) l | Other o => other_matches o d n end.

(** A list of type selectors  of the style sheet at cascade.rs:16-22 *)
Definition names (l : list string) : list ua_selector := map (fun s => Compound [LocalName (bs s)]) l.
(** user_agent.css: the first rule is [@namespace], which rules.rs:47-52 rejects like all at-rules. *)
Definition user_agent_css : list (source_rule ua_selector) :=
  [ BadRule;
    StyleRule
      (Compound [AttributeExists (bs "hidden")] ::
       names ["area"; "base"; "basefont"; "datalist"; "head"; "link"; "meta"; "noembed";
              "noframes"; "param"; "rp"; "script"; "source"; "style"; "template"; "track"; "title"]%string)
      [Item (bs "display") [TIdent (bs "none")]];
    StyleRule [Compound [LocalName (bs "embed"); AttributeExists (bs "hidden")]]
      [Item (bs "display") [TIdent (bs "inline")]; Item (bs "height") [TNumber 0]; Item (bs "width") [TNumber 0]];
    StyleRule [Compound [LocalName (bs "input"); AttributeEquals (bs "type") (bs "hidden") AsciiCaseInsensitive]]
      [Item (bs "display") [TIdent (bs "none"); TDelim 33; TIdent (bs "important")]];
    StyleRule (names ["html"; "body"]%string) [Item (bs "display") [TIdent (bs "block")]];
    StyleRule (names ["body"]%string) [Item (bs "margin") [TDimension 8 (bs "px")]];
    StyleRule
      (names ["address"; "blockquote"; "center"; "dialog"; "div"; "figure"; "figcaption"; "footer"; "form";
              "header"; "hr"; "legend"; "listing"; "main"; "p"; "plaintext"; "pre"; "xmp"]%string)
      [Item (bs "display") [TIdent (bs "block")]] ].
End Selectors.
Arguments Compound {other}. Arguments Other {other}.
