(** C39, C40 for any tag table, not only those an open produces: links may point anywhere. *)
From Verif Require Import M_Base M_Signature M_Header M_Profile S_Search P_Search.

Theorem C39_any_table :
  forall (H : Type) (p : Profile H), table_ok p -> forall s fuel r,
    search_tag (S fuel) p s false = Done r <-> match r with None => unlisted p s | Some i => first_at p s i end.
Proof. exact @search_plain. Qed.
Print Assumptions C39_any_table.

Theorem C40_any_table_result :
  forall (H : Type) (p : Profile H), table_ok p -> forall s r,
    (exists fuel, search_tag fuel p s true = Done r) <-> search_ends p s r.
Proof. exact @search_follows. Qed.
Print Assumptions C40_any_table_result.

Theorem C40_any_table_forever :
  forall (H : Type) (p : Profile H), table_ok p -> forall s,
    (forall fuel, exists s', search_tag fuel p s true = Running s') <-> forall r, ~ search_ends p s r.
Proof. exact @search_forever. Qed.
Print Assumptions C40_any_table_forever.

(** Tags 1, 2, 3, 4 with links 1 -> 2 -> 3 and 4 -> 9. *)
Definition chain : Profile unit :=
  mkProfile None (mkND 2020 1 1 0 0 0 0) 0 0 0 0 0 0 0 0 0 0 [] 4 [1; 2; 3; 4] [Some 2; Some 3; None; Some 9] [0; 0; 0; 0] [0; 0; 0; 0]
    [false; false; false; false] false.
Example C40_chain : table_ok chain /\ search_ends chain 1 (Some 2%nat) /\ search_ends chain 4 None /\
  search_tag 3 chain 1 true = Done (Some 2%nat) /\ search_tag 2 chain 4 true = Done None.
Proof.
  assert (OK : table_ok chain) by (split; cbn; lia). split; [exact OK|].
  split; [apply (C40_any_table_result _ chain OK); now exists 3%nat|]. split; [apply (C40_any_table_result _ chain OK); now exists 2%nat|]. now split.
Qed.
