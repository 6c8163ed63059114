(** * The three generated parsers: the loaders of LoaderModel.v with the tables read from
      src/cwl_utils/parser/cwl_v1_0.py, cwl_v1_1.py and cwl_v1_2.py *)
From Verif Require Import PyBase LoaderModel.
From Verif Require CwlTablesV1_0 CwlTablesV1_1 CwlTablesV1_2.

(** The three parser modules under src/cwl_utils/parser: cwl_v1_0.py, cwl_v1_1.py, cwl_v1_2.py
    *)
Inductive version := V1_0 | V1_1 | V1_2.
(** The classes, named loaders, terms and top loader of a version *)
Definition classes_of (v : version) : string -> option class :=
  match v with V1_0 => CwlTablesV1_0.classes | V1_1 => CwlTablesV1_1.classes | V1_2 => CwlTablesV1_2.classes end.
Definition all_of (v : version) : list (string * class) :=
  match v with V1_0 => CwlTablesV1_0.all_classes | V1_1 => CwlTablesV1_1.all_classes | V1_2 => CwlTablesV1_2.all_classes end.
Definition named_of (v : version) : list (string * loader) :=
  match v with V1_0 => CwlTablesV1_0.named | V1_1 => CwlTablesV1_1.named | V1_2 => CwlTablesV1_2.named end.
Definition proxies_of (v : version) : string -> option loader :=
  match v with V1_0 => CwlTablesV1_0.proxies | V1_1 => CwlTablesV1_1.proxies | V1_2 => CwlTablesV1_2.proxies end.
Definition terms_of (v : version) : list (string * string) :=
  match v with V1_0 => CwlTablesV1_0.terms | V1_1 => CwlTablesV1_1.terms | V1_2 => CwlTablesV1_2.terms end.
Definition back_of (v : version) : list (string * string) :=
  match v with V1_0 => CwlTablesV1_0.terms_back | V1_1 => CwlTablesV1_1.terms_back | V1_2 => CwlTablesV1_2.terms_back end.
Definition top_of (v : version) : loader :=
  match v with V1_0 => CwlTablesV1_0.top | V1_1 => CwlTablesV1_1.top | V1_2 => CwlTablesV1_2.top end.
(** The options at the start: [LoadingOptions(fileuri=uri)] with [_vocab] and [_rvocab] *)
Definition options_of (v : version) (uri : string) (no_link_check : bool) : options := Options None no_link_check (Some uri) (terms_of v) (back_of v).
