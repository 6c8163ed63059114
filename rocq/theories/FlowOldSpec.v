(** * What a workflow of CWL v1.0 or v1.1 has not *)
From Verif Require Import PyBase FlowModel.

(** no step has [when] and no output has [pickValue], the two fields that v1.2 added to them *)
Record Older (w : workflow) : Prop := {
  od_when : forall st, In st (wf_steps w) -> ws_when st = None;
  od_pick : forall o, In o (wf_outputs w) -> wo_pick o = None }.
(** the inputs of the steps have ids, as in every document that was loaded *)
Definition InputsNamed (w : workflow) : Prop :=
  forall st i, In st (wf_steps w) -> In i (ws_in st) -> si_id i <> "".
