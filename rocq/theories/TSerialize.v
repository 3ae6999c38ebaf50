(** Property theorems C07-C10: booleans, date-times, key/value JSON. *)
From Verif Require Import Base MBase64 MSerialize SSerialize PSerialize PTimeExact PTimeYears.
Open Scope N_scope.

(** C07. Exactly the documented spellings are accepted; [rest] is whatever
    memory follows the text, which is not looked at. *)
Theorem C07_bool_parse : forall s rest, cstr_ok s ->
  exists r, serialize_str2bool (Some (s ++ rest)) (blen s) = Ok r /\
    (r = 1%Z <-> means_true s) /\ (r = 0%Z <-> means_false s) /\
    (r = 1%Z \/ r = 0%Z \/ r = (-1)%Z).
Proof. exact str2bool_spec. Qed.
Print Assumptions C07_bool_parse.

Theorem C07_bool_roundtrip : forall b rest, exists s,
  serialize_bool2str b = Ok s /\ cstr_ok s /\
  serialize_str2bool (Some (s ++ rest)) (blen s) = Ok (if b then 1%Z else 0%Z).
Proof. exact bool_roundtrip. Qed.
Print Assumptions C07_bool_roundtrip.

Example C07_case :
  serialize_str2bool (Some (s2b "TrUe,")) 4 = Ok 1%Z /\
  serialize_str2bool (Some (s2b "falsey")) 6 = Ok (-1)%Z /\
  serialize_str2bool (Some (s2b "10")) 2 = Ok (-1)%Z.
Proof. vm_compute. repeat split. Qed.

(** C08. Four-digit years print as 20 characters and read back. *)
Theorem C08_time_roundtrip : forall t,
  (1000 <= tm_year t + 1900 <= 9999)%Z -> (0 <= tm_mon t <= 11)%Z -> (1 <= tm_mday t <= 31)%Z ->
  (0 <= tm_hour t <= 23)%Z -> (0 <= tm_min t <= 59)%Z -> (0 <= tm_sec t <= 61)%Z ->
  exists s, serialize_time2str t = Some s /\ blen s = 20 /\
    s = iso_text (Z.to_N (tm_year t + 1900)) (Z.to_N (tm_mon t + 1)) (Z.to_N (tm_mday t))
                 (Z.to_N (tm_hour t)) (Z.to_N (tm_min t)) (Z.to_N (tm_sec t)) /\
    exists t', serialize_str2time (Some s) = Some t' /\
      tm_year t' = tm_year t /\ tm_mon t' = tm_mon t /\ tm_mday t' = tm_mday t /\
      tm_hour t' = tm_hour t /\ tm_min t' = tm_min t /\ tm_sec t' = tm_sec t.
Proof. exact time_roundtrip_tm. Qed.
Print Assumptions C08_time_roundtrip.

Example C08_case : serialize_time2str (mk_tm 9 33 21 29 10 73 4 332 0)
  = Some (s2b "1973-11-29T21:33:09Z").
Proof. vm_compute. reflexivity. Qed.

(** C08 does not extend to larger years: 10000 prints but does not read back. *)
Theorem C08_time_year10000_refuted : exists t s, serialize_time2str t = Some s /\
  serialize_str2time (Some s) = None.
Proof. exact time_year10000_refuted. Qed.
Print Assumptions C08_time_year10000_refuted.

(** C08: a date-time is printed exactly when its year has at most five characters: the buffer has
    room for these and the NUL. *)
Theorem C08_years : forall t,
  (0 <= tm_mon t <= 11)%Z -> (1 <= tm_mday t <= 31)%Z -> (0 <= tm_hour t <= 23)%Z -> (0 <= tm_min t <= 59)%Z -> (0 <= tm_sec t <= 61)%Z ->
  (serialize_time2str t <> None <-> (-9999 <= tm_year t + 1900 <= 99999)%Z).
Proof. exact time_years. Qed.
Print Assumptions C08_years.

Example C08_years_case : serialize_time2str (mk_tm 0 0 0 1 0 98099 0 0 0) = Some (s2b "99999-01-01T00:00:00Z") /\ serialize_time2str (mk_tm 0 0 0 1 0 98100 0 0 0) = None /\
  serialize_time2str (mk_tm 0 0 0 1 0 (-11899) 0 0 0) = Some (s2b "-9999-01-01T00:00:00Z") /\ serialize_time2str (mk_tm 0 0 0 1 0 (-11900) 0 0 0) = None.
Proof. vm_compute. repeat split. Qed.

(** C09. Full statement, refuted twice: a text with trailing characters is
    accepted, and so is 31 February. *)
Theorem C09_time_trailing_refuted : exists s t, cstr_ok s /\
  serialize_str2time (Some s) = Some t /\
  (forall y mo d h mi se, s <> iso_text y mo d h mi se).
Proof. exact time_trailing_refuted. Qed.
Print Assumptions C09_time_trailing_refuted.

Theorem C09_time_unreal_refuted : exists y mo d h mi s t,
  serialize_str2time (Some (iso_text y mo d h mi s)) = Some t /\
  ~ real_datetime y mo d h mi s.
Proof. exact time_unreal_refuted. Qed.
Print Assumptions C09_time_unreal_refuted.

(** C09, what holds: an accepted text starts with the six numeric fields in
    their ranges, separated as in the format. Missing: nothing after the 'Z',
    no blanks, full field width, day within the month. *)
Theorem C09_time_accept_partial : forall s t, serialize_str2time (Some s) = Some t ->
  exists fy fmo fd fh fmi fs rest,
    s = fy ++ s2b "-" ++ fmo ++ s2b "-" ++ fd ++ s2b "T" ++ fh ++ s2b ":" ++ fmi
        ++ s2b ":" ++ fs ++ s2b "Z" ++ rest /\
    field_text 0 9999 4 (tm_year t + 1900) fy /\ field_text 1 12 2 (tm_mon t + 1) fmo /\
    field_text 1 31 2 (tm_mday t) fd /\ field_text 0 23 2 (tm_hour t) fh /\
    field_text 0 59 2 (tm_min t) fmi /\ field_text 0 61 2 (tm_sec t) fs.
Proof. exact str2time_shape. Qed.
Print Assumptions C09_time_accept_partial.

(** C09, the accepted texts exactly, with the values they get. *)
Theorem C09_exact : forall s y mo d h mi se,
  ((exists t, serialize_str2time (Some s) = Some t /\ (tm_year t + 1900)%Z = y /\ (tm_mon t + 1)%Z = mo /\ tm_mday t = d /\ tm_hour t = h /\ tm_min t = mi /\ tm_sec t = se) <->
   exists fy fmo fd fh fmi fs rest,
    s = fy ++ s2b "-" ++ fmo ++ s2b "-" ++ fd ++ s2b "T" ++ fh ++ s2b ":" ++ fmi ++ s2b ":" ++ fs ++ s2b "Z" ++ rest /\
    field_text 0 9999 4 y fy /\ field_text 1 12 2 mo fmo /\ field_text 1 31 2 d fd /\ field_text 0 23 2 h fh /\ field_text 0 59 2 mi fmi /\ field_text 0 61 2 se fs).
Proof. exact str2time_exact. Qed.
Print Assumptions C09_exact.

Example C09_case : serialize_str2time (Some (s2b "2023-1-31T 9:05:06Z+01:00")) <> None /\
  serialize_str2time (Some (s2b "2023-13-31T09:05:06Z")) = None.
Proof. vm_compute. split; [discriminate|reflexivity]. Qed.

(** C10. The JSON text of a key/value list; the result [Ok] says that no
    buffer was overrun. *)
Theorem C10_keyvalue_json : forall kvs, kvs <> [] -> N.of_nat (List.length kvs) < 4294967296 ->
  serialize_keyvalue2json (Some kvs) = Ok (Some (kv_json kvs)).
Proof. exact keyvalue2json_ok. Qed.
Print Assumptions C10_keyvalue_json.

Theorem C10_keyvalue_json_empty : serialize_keyvalue2json (Some []) = Ok None
  /\ serialize_keyvalue2json None = Ok None.
Proof. exact keyvalue2json_empty. Qed.
Print Assumptions C10_keyvalue_json_empty.

Example C10_case :
  serialize_keyvalue2json (Some [(s2b "a", s2b "1"); (s2b "b", s2b ""); (s2b "", s2b "xyz")])
  = Ok (Some (s2b "{a:1,b:,:xyz}")).
Proof. vm_compute. reflexivity. Qed.
