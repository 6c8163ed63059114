(** * Specification of packing twice *)
From Verif Require Import PyBase PackModel PackSpec.

(** no mapping in [j] has a link among its entries *)
Definition LinkFree (j : json) : Prop :=
  forall d, (j = JDict d \/ Inside (JDict d) j) -> dget "$import" d = None /\ dget "$include" d = None.

(** no source reference in the document, or in a process nested in it, starts with # *)
Definition PlainSources (d : dict) : Prop :=
  forall p s, Nested p d -> SourceRef p s -> forall r, s <> String "#" r.

(** where there is only one port, it has an id, and one that is not taken for an import *)
Definition NamedPorts (d : dict) : Prop :=
  forall p k q, Nested p d -> (k = "inputs" \/ k = "outputs") -> dget k p = Some (JList [JDict q]) ->
  exists id, dget "id" q = Some id /\ id <> JStr "$import".
