(** Lines that make the head of a part invalid. *)
From Verif Require Import Base MSerialize MHttp SHttp MTls MWire SWire SMultipart.
Open Scope N_scope.

(** A line that is no header line, a field without a name, a file name in no known coding. *)
Inductive bad_head : bytes -> Prop :=
| bad_no_colon line : line <> [] -> Forall (fun c => c <> 13 /\ c <> 58) line -> bad_head line
| bad_no_name key value : key <> [] -> Forall boundary_char key -> key <> s2b "name" -> Forall boundary_char value -> bad_head (s2b "Content-Disposition: form-data; " ++ key ++ s2b "=" ++ [34] ++ value ++ [34])
| bad_coding name file : Forall boundary_char name -> file <> [] -> Forall boundary_char file -> bad_head (field_line name ++ s2b "; filename*=" ++ file).
