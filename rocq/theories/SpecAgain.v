(* Searching again, in what search has printed. *)
From Coq Require Import List String NArith.
From Verif Require Import PyBase Record Api Spec SpecApi.
Import ListNotations.
Open Scope list_scope.

(* ts: the records among the lines ls that have the property P, without surrounding white space, in order *)
Inductive picked (P : str -> Prop) : list str -> list str -> Prop :=
| picked_none : picked P [] []
| picked_yes : forall l ls t ts, returned (read new_record l) = Ok true -> trimmed l t -> P t -> picked P ls ts -> picked P (l :: ls) (t :: ts)
| picked_no : forall l ls t ts, returned (read new_record l) = Ok true -> trimmed l t -> ~ P t -> picked P ls ts -> picked P (l :: ls) ts
| picked_other : forall l ls ts, returned (read new_record l) = Ok false -> picked P ls ts -> picked P (l :: ls) ts.
(* the question is shown on one line *)
Definition asked_on_one_line (fl : filters) : Prop := match fl with FStr s | FOther s => one_line s | FList _ => True end.
