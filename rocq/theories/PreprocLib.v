(** The macro table of the library (PreprocText.v) and the tables that contain it. *)
From Coq Require Import String Ascii ZArith Bool List Lia.
From Coq Require Import FMapPositive.
From Verif Require Import PreprocText Preproc.
Import ListNotations.

Definition lib_text : list string := detail_preprocessor ++ preprocessor ++ detail_macros ++ macros.

Definition or_empty (o : option table) : table :=
  match o with Some t => t | None => PositiveMap.empty macro end.

(** The value is computed once, here. *)
Definition lib : table := Eval vm_compute in or_empty (table_of lib_text (PositiveMap.empty macro)).

(** No redefinition, no malformed line. *)
Lemma lib_table : table_of lib_text (PositiveMap.empty macro) = Some lib.
Proof. exact (eq_refl (Some lib) <: table_of lib_text (PositiveMap.empty macro) = Some lib). Qed.

(** Identifiers in the replacement lists that are neither parameters nor macros. *)
Definition body_words (m : macro) : list spelling :=
  flat_map (fun t => match t with
    | TId p => if hs_mem p (match m_params m with Some ps => ps | None => [] end) then [] else [p]
    | _ => [] end) (m_body m).

Definition lib_words : PositiveMap.t unit := Eval vm_compute in
  fold_left (fun t p => match PositiveMap.find p lib with Some _ => t | None => PositiveMap.add p tt t end)
    (flat_map (fun x => body_words (snd x)) (PositiveMap.elements lib)) (PositiveMap.empty unit).

(** A translation unit that includes the library and defines further macros:
    none of the library's macros is redefined, and no macro is named like an
    identifier the library's macros produce. *)
Definition includes_lib (tab : table) : Prop :=
  (forall p m, PositiveMap.find p lib = Some m -> PositiveMap.find p tab = Some m) /\
  (forall p, PositiveMap.find p lib = None -> PositiveMap.find p lib_words <> None ->
             PositiveMap.find p tab = None).

Definition atom_free (m : macro) : bool :=
  forallb (fun t => match t with TAtom _ => false | _ => true end) (m_body m).

Lemma lib_atom_free : forallb (fun x => atom_free (snd x)) (PositiveMap.elements lib) = true.
Proof. vm_compute. reflexivity. Qed.
