(** What user_agent.css says, and what the HTML Standard says in §15.3 (in parts). *)
From Coq Require Import QArith.
From Verif Require Import Base Dom StyleValues StyleProperties StyleSpec.

Definition local (e : element_data) : bytes := q_local (e_name e).
(** An attribute without namespace *)
Definition has_attribute (e : element_data) (name : string) (value : bytes -> Prop) : Prop :=
  exists a, In a (e_attrs e) /\ q_ns (a_name a) = [] /\ q_local (a_name a) = bs name /\ value (a_value a).
Definition hidden (e : element_data) : Prop := has_attribute e "hidden" (fun _ => True).
(** [<input type=hidden>], the type in any case *)
Definition hidden_input (e : element_data) : Prop :=
  local e = bs "input" /\ has_attribute e "type" (fun v => map lower v = bs "hidden").

Definition not_displayed : list bytes :=
  map bs ["area"; "base"; "basefont"; "datalist"; "head"; "link"; "meta"; "noembed"; "noframes"; "param"; "rp"; "script"; "source";
          "style"; "template"; "track"; "title"]%string.
Definition blocks : list bytes :=
  map bs ["html"; "body"; "address"; "blockquote"; "center"; "dialog"; "div"; "figure"; "figcaption"; "footer"; "form"; "header"; "hr";
          "legend"; "listing"; "main"; "p"; "plaintext"; "pre"; "xmp"]%string.

(** The display of an element as far as the style sheet goes *)
Inductive ua_display (e : element_data) : display -> Prop :=
| ud_hidden_input : hidden_input e -> ua_display e DisplayNone
| ud_embed : local e = bs "embed" -> hidden e -> ua_display e (OutsideInside Inline Flow)
| ud_hidden : local e <> bs "embed" -> hidden e -> ua_display e DisplayNone
| ud_none : In (local e) not_displayed -> ua_display e DisplayNone
| ud_block : In (local e) blocks -> ~ hidden e -> ua_display e (OutsideInside Block Flow)
| ud_other : ~ In (local e) not_displayed -> ~ In (local e) blocks -> ~ hidden e -> ~ hidden_input e ->
    ua_display e (OutsideInside Inline Flow).
(** Each margin *)
Definition ua_margin (e : element_data) (v : lpa) : Prop :=
  (local e = bs "body" -> v = LpaLength 8) /\ (local e <> bs "body" -> v = LpaLength 0).
(** The width and the height *)
Definition ua_size (e : element_data) (v : lpa) : Prop :=
  (local e = bs "embed" /\ hidden e -> v = LpaLength 0) /\ (~ (local e = bs "embed" /\ hidden e) -> v = LpaAuto).
Definition not_in_sheet (p : longhand) : Prop :=
  ~ In p [display_; margin_top; margin_left; margin_bottom; margin_right; width; height].
(** No style sheet or style attribute of the author sets [p]. *)
Definition author_silent (occ : occurrence -> Prop) (p : longhand) : Prop :=
  forall o, occ o -> o_origin o = Author -> target (o_declaration o) <> p.

(** HTML Standard §15.3.3 and §15.3.6-7: some of the other elements with display: block *)
Definition more_blocks : list bytes :=
  map bs ["article"; "aside"; "details"; "dd"; "dl"; "dt"; "fieldset"; "h1"; "h2"; "h3"; "h4"; "h5"; "h6"; "hgroup"; "menu"; "nav"; "ol";
          "search"; "section"; "summary"; "ul"]%string.
