(** Numbers as text (C122; model: ModelFloat.v, ModelIO.v). *)
From Coq Require Import Reals Lra Lia ZArith List Floats Ascii String Bool.
From Flocq Require Import Core.Core.
From Verif Require Import Py Num ModelCurve ModelSurface ModelIO ModelFloat SpecIO SpecB64 SpecFloatText ProofIO ProofIO2 ProofIO3 ProofFloat3 ProofFloat4.
Import ListNotations.
Open Scope Z_scope.

(** ** float() *)
Theorem C122_parse : forall a w b sg ip fp ex, white a -> white b -> well_formed ip fp ex -> map small w = literal sg ip fp ex ->
  exists y, py_float (a ++ w ++ b) = Ok y /\
    ((Rabs (rounded (literal_value sg ip fp ex)) < bpow radix2 1024)%R -> finite64 y /\ value y = rounded (literal_value sg ip fp ex) /\
       (rounded (literal_value sg ip fp ex) = 0%R -> FloatOps.Prim2SF y = S754_zero (minus sg))) /\
    ((bpow radix2 1024 <= Rabs (rounded (literal_value sg ip fp ex)))%R -> y = if minus sg then neg_infinity else infinity).
Proof. exact parse_number. Qed.
Print Assumptions C122_parse.
Theorem C122_words : forall a w b sg, white a -> white b ->
  (map small w = sign_text sg ++ list_ascii_of_string "inf" \/ map small w = sign_text sg ++ list_ascii_of_string "infinity" ->
     py_float (a ++ w ++ b) = Ok (if minus sg then neg_infinity else infinity)) /\
  (map small w = sign_text sg ++ list_ascii_of_string "nan" -> py_float (a ++ w ++ b) = Ok nan).
Proof. exact parse_words. Qed.
Print Assumptions C122_words.
(** Nothing else is accepted, up to underscores between digits. *)
Theorem C122_others : forall t, ~ In "_"%char t ->
  (forall a w b sg, t = a ++ w ++ b -> white a -> white b ->
     map small w <> sign_text sg ++ list_ascii_of_string "inf" /\ map small w <> sign_text sg ++ list_ascii_of_string "infinity" /\
     map small w <> sign_text sg ++ list_ascii_of_string "nan" /\
     forall ip fp ex, well_formed ip fp ex -> map small w <> literal sg ip fp ex) -> py_float t = Err ValueError.
Proof. exact parse_others. Qed.
Print Assumptions C122_others.
Theorem C122_underscores : forall t,
  (grouped t -> py_float t = py_float (without_underscores t)) /\ (~ grouped t -> py_float t = Err ValueError).
Proof. exact (fun t => conj (py_float_grouped t) (py_float_ungrouped t)). Qed.
Print Assumptions C122_underscores.
(** ** '{}'.format(x): the shortest decimal that rounds to x, the closest of those, an even last digit on a tie *)
Theorem C122_format : forall x, finite64 x -> value x <> 0%R -> exists (s : bool) ip fp ex c i n, (s = true <-> (value x < 0)%R) /\
  fmt_float x = literal (if s then Some true else None) ip fp ex /\ well_formed ip fp ex /\ usual ip fp ex /\
  literal_value (if s then Some true else None) ip fp ex = decimal s c i /\ 1 <= n <= 17 /\ 10 ^ (n - 1) <= c < 10 ^ n /\
  (ex = None <-> 1 / 10000 <= Rabs (decimal s c i) < 10 ^ 16)%R /\
  rounded (decimal s c i) = value x /\
  (forall m k, 0 < m < 10 ^ (n - 1) -> rounded (decimal s m k) <> value x) /\
  (forall m k, 0 < m < 10 ^ n -> rounded (decimal s m k) = value x -> (Rabs (decimal s c i - value x) <= Rabs (decimal s m k - value x))%R) /\
  (forall m k, 0 < m < 10 ^ n -> rounded (decimal s m k) = value x -> Rabs (decimal s c i - value x) = Rabs (decimal s m k - value x) ->
     decimal s m k = decimal s c i \/ Z.even c = true \/ c = 1).
Proof. exact format_number. Qed.
Print Assumptions C122_format.
Theorem C122_format_special : forall x, (FloatOps.Prim2SF x = S754_nan -> fmt_float x = list_ascii_of_string "nan") /\
  (forall s : bool, FloatOps.Prim2SF x = S754_infinity s -> fmt_float x = if s return list ascii then list_ascii_of_string "-inf" else list_ascii_of_string "inf") /\
  (forall s : bool, FloatOps.Prim2SF x = S754_zero s -> fmt_float x = if s return list ascii then list_ascii_of_string "-0.0" else list_ascii_of_string "0.0").
Proof. exact format_special. Qed.
Print Assumptions C122_format_special.
(** ** Reading back what was written, bit for bit (any NaN is read as the NaN) *)
Theorem C122_roundtrip : forall x, py_float (fmt_float x) = Ok x.
Proof. exact roundtrip. Qed.
Print Assumptions C122_roundtrip.
Theorem C122_faithful : faithful python_codec.
Proof. exact python_faithful. Qed.
Print Assumptions C122_faithful.
(** So the file formats of C61 and C66 hold for Python's own conversions. *)
Theorem C122_surface_file : forall (s : surf Binary64) pu pv a b nu nv P ku kv name d, ku <> [] -> kv <> [] -> f_ropen d name = None ->
  f_files d name = Some (unlines (surface_layout (K := Binary64) fmt_float pu pv a b (join tab_char (map fmt_float ku)) (join tab_char (map fmt_float kv)) nu nv P)) ->
  read_surf_from_txt plain_step python_codec (Some s) name d = (d, Some (mkSurf pu pv nu nv (map row3 P) ku kv), Ok tt).
Proof. exact (@surface_clean_plain Binary64 python_codec python_faithful). Qed.
Print Assumptions C122_surface_file.
Theorem C122_not_readable : forall S (step : setter S (surf_op Binary64)) (o : S) pu pv nu nv P ku kv name d, f_wopen d name = None -> f_ropen d name = None ->
  exists d', write_surface_to_txt python_codec (mkSurf pu pv nu nv (map row3 P) ku kv) name d = (d', Ok tt) /\
    read_surf_from_txt step python_codec (Some o) name d' = (d', Some o, Err ValueError).
Proof. exact (@surface_round_trip Binary64 python_codec python_faithful). Qed.
Print Assumptions C122_not_readable.
(** ** int() *)
Theorem C122_int : forall a b sg ds, white a -> white b -> decimal_digits ds -> ds <> [] ->
  py_int (a ++ (sign_text sg ++ chars ds) ++ b) = Ok (if minus sg then - positional ds else positional ds).
Proof. exact int_number. Qed.
Print Assumptions C122_int.
Theorem C122_int_others : forall t, ~ In "_"%char t ->
  (forall a b sg ds, white a -> white b -> decimal_digits ds -> ds <> [] -> t <> a ++ (sign_text sg ++ chars ds) ++ b) -> py_int t = Err ValueError.
Proof. exact int_others. Qed.
Print Assumptions C122_int_others.
Theorem C122_int_underscores : forall t,
  (grouped t -> py_int t = py_int (without_underscores t)) /\ (~ grouped t -> py_int t = Err ValueError).
Proof. exact int_grouped. Qed.
Print Assumptions C122_int_underscores.

Definition shown (x : PrimFloat.float) : string := string_of_list_ascii (fmt_float x).
Definition read (s : string) : res PrimFloat.float := py_float (list_ascii_of_string s).
Example C122_format_example :
  shown (PrimFloat.div 1 10) = "0.1"%string /\ shown (PrimFloat.add (PrimFloat.div 1 10) (PrimFloat.div 2 10)) = "0.30000000000000004"%string /\
  shown 0x1p-44 = "5.684341886080802e-14"%string /\ shown (-1500) = "-1500.0"%string /\ shown 0x1p-1074 = "5e-324"%string /\
  shown 0x1.fffffffffffffp1023 = "1.7976931348623157e+308"%string /\ shown 10000000000000000 = "1e+16"%string /\ shown 9999999999999998 = "9999999999999998.0"%string.
Proof. repeat split; vm_compute; reflexivity. Qed.
Example C122_parse_example :
  read (" +1_000.5E-1 ") = Ok 100.05%float /\ read "1__0" = Err ValueError /\ read "1_" = Err ValueError /\ read "-Infinity" = Ok neg_infinity /\ read "1e400" = Ok infinity /\
  read "-1e-400" = Ok (-0)%float /\ read "." = Err ValueError /\ read "5." = Ok 5%float /\ read ".5" = Ok 0.5%float /\ read "1e" = Err ValueError /\ read "0x10" = Err ValueError /\ read "1 2" = Err ValueError /\
  read "9007199254740993" = Ok 9007199254740992%float /\ read "9007199254740993.0000000000000000000000001" = Ok 9007199254740994%float.
Proof. repeat split; vm_compute; reflexivity. Qed.
(** The texts of C122_parse: 2.50e+1 with blanks and capitals. *)
Example C122_literal_example :
  map small (list_ascii_of_string "-2.50E+1") = literal (Some true) [2] (Some [5; 0]) (Some (Some false, [1])) /\ well_formed [2] (Some [5; 0]) (Some (Some false, [1])) /\
  literal_value (Some true) [2] (Some [5; 0]) (Some (Some false, [1])) = (-25)%R /\ grouped (list_ascii_of_string "1_0") /\ ~ grouped (list_ascii_of_string "_10").
Proof.
  split; [vm_compute; reflexivity|split].
  { split; [repeat constructor; lia|split; [repeat constructor; lia|split; [discriminate|split; [repeat constructor; lia|discriminate]]]]. }
  split; [unfold literal_value, decimal; change (positional _) with 250; change (exponent_value _ - _) with (-1); cbn [minus powerRZ]; change (Pos.to_nat 1) with 1%nat; lra|split].
  - apply between_grouped; reflexivity.
  - intros G; apply between_grouped in G; discriminate.
Qed.
Example C122_int_example : py_int (list_ascii_of_string " +1_2 ") = Ok 12 /\ py_int (list_ascii_of_string "1_") = Err ValueError /\ py_int (list_ascii_of_string "-007") = Ok (-7) /\ py_int (list_ascii_of_string "1.0") = Err ValueError.
Proof. repeat split; vm_compute; reflexivity. Qed.
(** The numbers written in the code: 1e-5, 1e-6 and numpy's default 1e-8. *)
Theorem C122_constants : read "1e-5" = Ok (lit_1em5 : Binary64) /\ read "1e-6" = Ok (lit_1em6 : Binary64) /\ read "1e-8" = Ok (lit_1em8 : Binary64).
Proof. repeat split; vm_compute; reflexivity. Qed.
Print Assumptions C122_constants.
