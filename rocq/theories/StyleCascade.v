(** Model of victor/src/style/declaration_block.rs, rules.rs and cascade.rs.
    cssparser splits a declaration list into declarations and a style sheet into rules, and the
    selectors crate parses and matches selectors: these are inputs here.  A declaration is its
    name and its tokens up to the semicolon.  Failing assertions, including [debug_assert!], are
    [Panic]. *)
From Coq Require Import QArith.
From Verif Require Import Base Dom StyleValues StyleProperties.
Local Open Scope res_scope.

(** What [DeclarationListParser] meets: a name, a colon and tokens, or something it reports as
    an error by itself (at-rules, for which declaration_block.rs:120-125 has the default methods;
    missing colons; stray tokens). *)
Inductive item := Item (name : bytes) (value : list token) | BadItem.

(** declaration_block.rs:8-14; [SmallBitVec] is [list bool] *)
Record declaration_block : Type := mkBlock {
  declarations : list declaration;
  important : list bool;
  any_important : per_phase;
  any_normal : per_phase }.
(** [PerPhase::default()]: properties/mod.rs:118-122 *)
Definition no_phase : per_phase := mkPerPhase false false.
(** [DeclarationBlock::default()]: declaration_block.rs:8-14 *)
Definition block_default : declaration_block := mkBlock [] [] no_phase no_phase.
(** Both fields with [|]: declaration_block.rs:79-117 *)
Definition or_phase (a b : per_phase) : per_phase := mkPerPhase (early a || early b) (late a || late b).

Section Parse.
Variable parse_color : parser color.

(** declaration_block.rs:79-117: the block, and the tokens left if the result is [Ok] *)
Definition parse_value (b : declaration_block) (name : bytes) (ts : list token) :
    result (declaration_block * option (list token)) :=
  match property_data_by_name name with
  | None => Ok (b, None)
  | Some data =>
      match
        match parse_css_wide ts with
        | Some (keyword, ts) =>
            Some (map (fun p => CssWide p keyword) (longhands data), phases_of (longhands data), ts)
        | None =>
            match property_parse parse_color data ts with
            | Some (ds, phases, ts) => Some (ds, phases, ts)
            | None => None
            end
        end
      with
      | None => Ok (b, None)
      | Some (ds, parsed, ts) =>
          let '(imp, ts) := match parse_important ts with Some ts => (true, ts) | None => (false, ts) end in
          _ <- assert (0 <? List.length ds) ;;
          Ok (mkBlock (declarations b ++ ds) (important b ++ repeat imp (List.length ds))
                (if imp then or_phase (any_important b) parsed else any_important b)
                (if imp then any_normal b else or_phase (any_normal b) parsed), Some ts)
      end
  end.

(** One turn of the loop in declaration_block.rs:24-39.  cssparser's [parse_until_after] runs
    [parse_value] and then requires that no token is left: if one is, the result is an error although
    [parse_value] has already changed the block. *)
Definition parse_item (b : declaration_block) (i : item) : result declaration_block :=
  b' <- match i with
        | BadItem => Ok b
        | Item name ts =>
            r <- parse_value b name ts ;;
            let '(b', left_over) := r in
            match left_over with
            | Some [] => Ok b'
            | _ => _ <- assert (List.length (declarations b') =? List.length (declarations b)) ;; Ok b'
            end
        end ;;
  _ <- assert (List.length (declarations b') =? List.length (important b')) ;;
  Ok b'.
(** The loop in declaration_block.rs:24-38 *)
Fixpoint parse_items (b : declaration_block) (l : list item) : result declaration_block :=
  match l with
  | [] => Ok b
  | i :: r => b <- parse_item b i ;; parse_items b r
  end.
(** declaration_block.rs:17-48 *)
Definition parse_block (l : list item) : result declaration_block :=
  b <- parse_items block_default l ;;
  _ <- assert (Bool.eqb (early (any_normal b) || late (any_normal b)) (negb (forallb (fun x => x) (important b)))) ;;
  _ <- assert (Bool.eqb (early (any_important b) || late (any_important b)) (negb (forallb negb (important b)))) ;;
  Ok b.
End Parse.

(** declaration_block.rs:58-68 *)
Definition block_cascade (b : declaration_block) (imp : bool) (any : per_phase) (f : phase)
    (inherited this : computed_values) : computed_values :=
  if select f any
  then fold_left (fun c di => if Bool.eqb (snd di) imp then phase_cascade f inherited (fst di) c else c)
         (combine (declarations b) (important b)) this
  else this.
(** declaration_block.rs:50-56 *)
Definition cascade_normal (f : phase) (inherited : computed_values) (this : computed_values) (b : declaration_block) :=
  block_cascade b false (any_normal b) f inherited this.
(** declaration_block.rs:54-56 *)
Definition cascade_important (f : phase) (inherited : computed_values) (this : computed_values) (b : declaration_block) :=
  block_cascade b true (any_important b) f inherited this.

(** cascade.rs:70-73 *)
Record matching_declarations : Type := mkMatching { m_ua : list declaration_block; m_author : list declaration_block }.
(** cascade.rs:75-83 *)
Definition cascade (m : matching_declarations) (f : phase) (inherited this : computed_values) : computed_values :=
  let c := fold_left (cascade_normal f inherited) (m_ua m) this in
  let c := fold_left (cascade_normal f inherited) (m_author m) c in
  let c := fold_left (cascade_important f inherited) (m_author m) c in
  fold_left (cascade_important f inherited) (m_ua m) c.

(** properties/macros.rs:191-234 *)
Definition computed_new (parent : option computed_values) (m : option matching_declarations) : computed_values :=
  let inherited := match parent with Some p => p | None => INITIAL_VALUES end in
  let start := mkComputed (fun p => if in_inherited_struct p then get inherited p else initial_value p) display_initial in
  let c :=
    match m with
    | Some m => cascade m Late inherited (cascade m Early inherited start)
    | None => start
    end in
  post_cascade_fixups c.
(** properties/mod.rs:18-20 *)
Definition anonymous_inheriting_from (parent : option computed_values) : computed_values := computed_new parent None.

Section Rules.
Variable parse_color : parser color.
Variable selector : Type.
Variable specificity : selector -> N.
Variable matches : selector -> document -> node_id -> bool.

(** A rule as cssparser and rules.rs:7-45 hand it over: selectors and the contents of the block, or
    an error (bad selectors, at-rules). *)
Inductive source_rule := StyleRule (selectors : list selector) (body : list item) | BadRule.
(** cascade.rs:12-14 *)
Definition style_set : Type := list (selector * declaration_block).

(** cascade.rs:29-44 *)
Fixpoint add_stylesheet (s : style_set) (css : list source_rule) : result style_set :=
  match css with
  | [] => Ok s
  | StyleRule selectors body :: r =>
      b <- parse_block parse_color body ;;
      add_stylesheet (s ++ map (fun x => (x, b)) selectors) r
  | BadRule :: r => add_stylesheet s r
  end.
(** Several calls of [add_stylesheet] on one builder: dom/mod.rs:47-60 *)
Fixpoint add_stylesheets (s : style_set) (l : list (list source_rule)) : result style_set :=
  match l with
  | [] => Ok s
  | css :: r => s <- add_stylesheet s css ;; add_stylesheets s r
  end.

(** [Vec::sort_by_key], a stable sort: insertion from the right puts an element before those of
    equal key that follow it.  cascade.rs:46-52 *)
Fixpoint insert_by {A} (key : A -> N) (x : A) (l : list A) : list A :=
  match l with
  | [] => [x]
  | y :: r => if (key x <=? key y)%N then x :: y :: r else y :: insert_by key x r
  end.
(** [sort_by_key]: cascade.rs:46-52 *)
Definition sort_by_key {A} (key : A -> N) (l : list A) : list A := fold_right (insert_by key) [] l.
(** cascade.rs:46-52 *)
Definition finish (s : style_set) : style_set := sort_by_key (fun r => specificity (fst r)) s.

(** cascade.rs:56-67 *)
Definition push_matching (s : style_set) (d : document) (n : node_id) : list declaration_block :=
  map snd (filter (fun r => matches (fst r) d n) s).

(** cascade.rs:99: the namespaces in which the style attribute counts *)
Definition ns_svg : bytes := bs "http://www.w3.org/2000/svg".
(** cascade.rs:99 *)
Definition ns_mathml : bytes := bs "http://www.w3.org/1998/Math/MathML".
(** cascade.rs:99 *)
Definition styled_namespace (ns : bytes) : bool :=
  bytes_eqb ns ns_html || bytes_eqb ns ns_svg || bytes_eqb ns ns_mathml.

(** cascade.rs:85-108.  [ua] is the user-agent style sheet of lines 16-22; [items_of] is cssparser's
    splitting of the attribute into declarations. *)
Variable items_of : bytes -> list item.
(** cascade.rs:85-108 *)
Definition style_for_element (ua author : style_set) (d : document) (n : node_id) (parent_style : option computed_values) :
    result computed_values :=
  nd <- index d n ;;
  match as_element nd with
  | None => Panic
  | Some e =>
      let m := mkMatching (push_matching ua d n) (push_matching author d n) in
      m <- (if styled_namespace (q_ns (e_name e)) then
              match get_attr e (bs "style") with
              | Some style =>
                  b <- parse_block parse_color (items_of style) ;;
                  Ok (mkMatching (m_ua m) (m_author m ++ [b]))
              | None => Ok m
              end
            else Ok m) ;;
      Ok (computed_new parent_style (Some m))
  end.
End Rules.
Arguments StyleRule {selector}. Arguments BadRule {selector}.
