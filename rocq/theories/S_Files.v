(** * S_Files: which file is used (specification, C78, C79). *)
From Verif Require Import Py M_Path.

(** a path list that is absent, or in which the file is missing or empty, contributes nothing *)
Definition nothing (fs : fsys) (ps : option (list str)) (name : str) : Prop :=
  ps = None \/ exists l, ps = Some l /\ (pathlist_read fs l name = Raise EName \/ pathlist_read fs l name = Ok []).
Definition provides (fs : fsys) (ps : option (list str)) (name : str) (d : bytes) : Prop :=
  d <> [] /\ exists l, ps = Some l /\ pathlist_read fs l name = Ok d.
Definition file_has (fs : fsys) (name : str) (d : bytes) : Prop := exists z, fs name = Some (FFile d z).

(** a PICS document: the supplied path list, then the one in effect, then the name itself *)
Inductive pics_found (fs : fsys) (supplied current : option (list str)) (name : str) : bytes -> Prop :=
| pf_supplied d : provides fs supplied name d -> pics_found fs supplied current name d
| pf_current d : nothing fs supplied name -> provides fs current name d -> pics_found fs supplied current name d
| pf_local d : nothing fs supplied name -> nothing fs current name -> file_has fs name d -> pics_found fs supplied current name d.

(** a model definition: the path list in effect, then the working directory, then the directory of the package *)
Inductive definition_found (fs : fsys) (current : option (list str)) (package : str) (name : str) : bytes -> Prop :=
| df_current d : provides fs current name d -> definition_found fs current package name d
| df_local d : nothing fs current name -> file_has fs name d -> d <> [] -> definition_found fs current package name d
| df_package d : nothing fs current name -> (fs name = None \/ file_has fs name []) -> file_has fs (package ++ [SEP] ++ name) d -> d <> [] ->
    definition_found fs current package name d.
