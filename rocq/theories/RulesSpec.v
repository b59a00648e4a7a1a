(** Which of an author's declarations count for an element, said of the rules of style sheets as written *)
From Coq Require Import NArith List.
From Verif Require Import Base StyleProperties StyleSpec.
Import ListNotations.

Section Leads.
Variable selector : Type.
Variable specificity : selector -> N.
(** Whether the selector matches the element *)
Variable matching : selector -> bool.
(** The declarations of the longhand [p] in the rules that match, in order, each with its importance and the specificity of its selector *)
Definition contributions (p : longhand) (r : selector * list (declaration * bool)) : list (bool * N * declaration) :=
  if matching (fst r)
  then map (fun x => (snd x, specificity (fst r), fst x)) (filter (fun x => if longhand_eq_dec (target (fst x)) p then true else false) (snd r))
  else [].
Definition candidates (p : longhand) (rules : list (selector * list (declaration * bool))) : list (bool * N * declaration) :=
  flat_map (contributions p) rules.
(** Important ones are stronger, then those of greater specificity. *)
Definition weaker (a b : bool * N) : Prop := (fst a = false /\ fst b = true) \/ (fst a = fst b /\ (snd a < snd b)%N).
Definition no_stronger (a b : bool * N) : Prop := (fst a = false /\ fst b = true) \/ (fst a = fst b /\ (snd a <= snd b)%N).
(** [d] is the last of the strongest declarations of [p]. *)
Definition leads (rules : list (selector * list (declaration * bool))) (p : longhand) (important : bool) (d : declaration) : Prop :=
  exists before sp after, candidates p rules = before ++ (important, sp, d) :: after /\
    (forall x, In x before -> no_stronger (fst x) (important, sp)) /\ (forall x, In x after -> weaker (fst x) (important, sp)).
(** Two lists of rules with the same leaders: neither rules that do not match, nor declarations that others override, nor the order of
    declarations of different longhands make a difference. *)
Definition same_leaders (rules rules' : list (selector * list (declaration * bool))) : Prop :=
  forall p important d, leads rules p important d <-> leads rules' p important d.
End Leads.
