(** Specification: what following links means, for any tag table. *)
From Verif Require Import M_Base M_Signature M_Profile.

Definition first_at {H} (p : Profile H) (s : Signature) (i : nat) : Prop :=
  (i < p_tag_count p)%nat /\ nth_error (p_tag_names p) i = Some s /\ forall j, (j < i)%nat -> nth_error (p_tag_names p) j <> Some s.
Definition unlisted {H} (p : Profile H) (s : Signature) : Prop :=
  forall j, (j < p_tag_count p)%nat -> nth_error (p_tag_names p) j <> Some s.
(** Where the search for [s] ends: at a tag without a link, or nowhere. *)
Inductive search_ends {H} (p : Profile H) : Signature -> option nat -> Prop :=
| EndsNowhere s : unlisted p s -> search_ends p s None
| EndsHere s i : first_at p s i -> nth_error (p_tag_linked p) i = Some None -> search_ends p s (Some i)
| EndsAfterLink s i s' r : first_at p s i -> nth_error (p_tag_linked p) i = Some (Some s') -> search_ends p s' r -> search_ends p s r.
(** The arrays cover the listed tags. *)
Definition table_ok {H} (p : Profile H) : Prop :=
  (p_tag_count p <= length (p_tag_names p))%nat /\ (p_tag_count p <= length (p_tag_linked p))%nat.
