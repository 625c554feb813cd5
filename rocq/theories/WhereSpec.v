(** Independent meaning of user-level queries ([Where]), used in the statements of C23 and C24. *)
From Verif Require Import Base Chrono Types Query.

Section Meaning.
  Context {D M : Type}.
  Variable enc_data : D -> option json.
  Variable enc_metadata : M -> option json.

  (** The job satisfies the query expression. *)
  Fixpoint wsat (w : where_ D M) (j : job) : Prop :=
    match w with
    | WNot q => ~ wsat q j
    | WAnd qs => (fix all l := match l with [] => True | q :: l' => wsat q j /\ all l' end) qs
    | WOr qs => (fix any l := match l with [] => False | q :: l' => wsat q j \/ any l' end) qs
    | WDataEquals d => enc_data d = Some (j_data j)
    | WMetadataEquals d => enc_metadata d = Some (j_metadata j)
    | WIdEquals id => j_id j = id
    | WIdIn ids => In (j_id j) ids
    | WStatusEqual s => j_status j = s
    | WTagsAllOf ts => forall t, In t ts -> In t (j_tags j)
    | WTagsOneOf ts => exists t, In t ts /\ In t (j_tags j)
    | WScheduledAtBefore t => j_scheduled_at j < t
    | WScheduledAtAfter t => t < j_scheduled_at j
    | WScheduledAtEqual t => j_scheduled_at j = t
    end.

  (** Every data and metadata value in the expression can be serialized. *)
  Fixpoint wencodable (w : where_ D M) : Prop :=
    match w with
    | WNot q => wencodable q
    | WAnd qs | WOr qs =>
        (fix all l := match l with [] => True | q :: l' => wencodable q /\ all l' end) qs
    | WDataEquals d => enc_data d <> None
    | WMetadataEquals d => enc_metadata d <> None
    | _ => True
    end.
End Meaning.
