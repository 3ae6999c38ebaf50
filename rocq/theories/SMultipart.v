(** What is expected of contents in parts, stated on the text that is sent. *)
From Verif Require Import Base MSerialize MHttp SHttp MTls MWire SWire.
Open Scope N_scope.

(** A boundary as it may stand in a header: letters, digits and minus signs. *)
Definition boundary_char (c : N) : Prop := 48 <= c <= 57 \/ 65 <= c <= 90 \/ 97 <= c <= 122 \/ c = 45.
Definition boundary_ok (b : bytes) : Prop := b <> [] /\ Forall boundary_char b /\ blen b <= 4000.
(** The name of a field: letters, digits and minus signs. *)
Definition field_ok (n : bytes) : Prop := n <> [] /\ Forall boundary_char n /\ blen n <= 4000.
(** The line between two parts. *)
Definition between (b : bytes) : bytes := [13; 10] ++ s2b "--" ++ b.
(** The lines of the head of a part: the name of a field, alone or with
    parameters before and behind it (the name of a file, or whatever), a type, other lines. *)
Definition field_line (n : bytes) : bytes := s2b "Content-Disposition: form-data; name=" ++ [34] ++ n ++ [34].
Definition param_text (p : bytes * bytes) : bytes := s2b "; " ++ fst p ++ s2b "=" ++ [34] ++ snd p ++ [34].
Inductive head_line := LName (n : bytes) | LParams (before : list (bytes * bytes)) (n : bytes) (behind : list (bytes * bytes)) | LType (t : bytes) | LOther (k v : bytes).
Definition head_line_text (h : head_line) : bytes :=
  match h with
  | LName n => field_line n
  | LParams before n behind => s2b "Content-Disposition: form-data" ++ flat_map param_text (before ++ (s2b "name", n) :: behind)
  | LType t => s2b "Content-Type: " ++ t
  | LOther k v => k ++ s2b ": " ++ v
  end.
Definition head_line_ok (h : head_line) : Prop :=
  match h with
  | LName n => field_ok n
  | LParams before n behind => field_ok n /\ Forall (fun p => fst p <> [] /\ Forall boundary_char (fst p) /\ Forall (fun c => boundary_char c \/ c = 46) (snd p)) (before ++ behind) /\
      Forall (fun p => fst p <> s2b "name") before /\ blen (flat_map param_text (before ++ (s2b "name", n) :: behind)) <= 8000
  | LType t => plain_value t /\ blen t <= 4000
  | LOther k v => plain_name k /\ plain_value v /\ blen k + blen v <= 8000 /\ ~ same_name k (s2b "Content-Type") /\ ~ same_name k (s2b "Content-Disposition")
  end.
(** The last line with a name and the last one with a type count, and in a line the first name; none: empty. *)
Definition line_name (n : bytes) (h : head_line) : bytes := match h with LName n' | LParams _ n' _ => n' | _ => n end.
Definition line_type (t : bytes) (h : head_line) : bytes := match h with LType t' => t' | _ => t end.
Definition head_name (l : list head_line) : bytes := fold_left line_name l [].
Definition head_type (l : list head_line) : bytes := fold_left line_type l [].
(** A part has any such lines and any bytes but the line between two parts. *)
Definition field : Type := list head_line * bytes.
Definition part_ok (b : bytes) (x : field) : Prop := Forall head_line_ok (fst x) /\ ~ part_of (between b) (snd x).
Definition lines_text (l : list head_line) : bytes := flat_map (fun h => head_line_text h ++ [13; 10]) l.
Definition part_text (x : field) : bytes := lines_text (fst x) ++ [13; 10] ++ snd x.
(** What comes after a part. *)
Fixpoint tail_text (b : bytes) (l : list field) : bytes :=
  match l with
  | [] => s2b "--" ++ [13; 10]
  | x :: r => [13; 10] ++ part_text x ++ between b ++ tail_text b r
  end.
(** The whole content; at least one part. *)
Definition form_text (b : bytes) (l : list field) : bytes := s2b "--" ++ b ++ tail_text b l.
