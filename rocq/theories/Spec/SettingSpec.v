(** * SettingSpec.v: settings as text and resource limits as integers. *)
From Coq Require Import Floats.SpecFloat Decimal DecimalString.
From Verif Require Import Model.Go Model.Types Model.Engine Spec.CompileSpec.

(** [formatFloat] and [toJSON] stand for strconv.FormatFloat and the JSON encoder. *)
Section Texts.
  Variable formatFloat : float64 -> string.
  Variable toJSON : value -> string.
  (** A decimal numeral of [z] that starts with zero only when it is zero. *)
  Definition Numeral (z : Z) (t : string) : Prop :=
    (exists i, NilZero.int_of_string t = Some i /\ Z.of_int i = z) /\
    (forall r, t = String "0" r -> r = "") /\ (forall r, t <> String "-" (String "0" r)).
  Inductive ScalarText : value -> string -> Prop :=
  | text_null : ScalarText VNull ""
  | text_true : ScalarText (VBool true) "true"
  | text_false : ScalarText (VBool false) "false"
  | text_int z t : Numeral z t -> ScalarText (VInt z) t
  | text_float f t : formatFloat f = t -> ~ In t ["+Inf"; "-Inf"; "NaN"] -> ScalarText (VFloat f) t
  | text_inf f : formatFloat f = "+Inf" -> ScalarText (VFloat f) ".inf"
  | text_neg_inf f : formatFloat f = "-Inf" -> ScalarText (VFloat f) "-.inf"
  | text_nan f : formatFloat f = "NaN" -> ScalarText (VFloat f) ".nan"
  | text_string s : ScalarText (VStr s) s.
  Definition Nested (v : value) : Prop := (exists l, v = VList l) \/ (exists m, v = VMap m).
  Inductive SettingText : value -> string -> Prop :=
  | set_string s : SettingText (VStr s) s
  | set_true : SettingText (VBool true) "true"
  | set_false : SettingText (VBool false) "false"
  | set_int z t : Numeral z t -> SettingText (VInt z) t
  | set_float f : SettingText (VFloat f) (formatFloat f)
  | set_list l ts : Forall2 ScalarText l ts -> SettingText (VList l) (join "," ts)
  | set_nested l : Exists Nested l -> SettingText (VList l) (toJSON (VList l))
  | set_map m : SettingText (VMap m) (toJSON (VMap m))
  | set_null : SettingText VNull (toJSON VNull).
End Texts.

(** A normal number m / 2^d, d positive. *)
Definition NormalFraction (f : float64) (m : positive) (d : Z) : Prop :=
  f = S754_finite false m (- d) /\ (2 ^ 52 <= Zpos m < 2 ^ 53)%Z /\ (0 < d <= 1074)%Z.
(** [r] thousandths for a limit of [f] CPUs. For m / 2^d it is the integral part of 1000 m / 2^d up to a
    relative error of one in 2^52, and exactly that number when it is an integer. *)
Definition Thousandths (f : float64) (r : Z) : Prop :=
  (forall s, f = S754_zero s -> r = 0%Z) /\
  (forall m d, NormalFraction f m d ->
    (r * 2 ^ d * 2 ^ 52 <= 1000 * Zpos m * (2 ^ 52 + 1) /\ 1000 * Zpos m * (2 ^ 52 - 1) < (r + 1) * 2 ^ d * 2 ^ 52 /\
     forall R, R < 2 ^ 53 -> 1000 * Zpos m = R * 2 ^ d -> r = R)%Z).
Definition RightLimit (from : option ResourceObject) (to : option EResourceObject) : Prop :=
  match from, to with
  | None, None => True
  | Some a, Some b => eo_memory b = ro_memory a /\ Thousandths (ro_cpu a) (eo_cpu b)
  | _, _ => False
  end.
Definition RightResources (o : Origin) (s : Step) : Prop :=
  match o with
  | FromClone => st_resources s = None
  | FromService src | FromStep src =>
      match ct_resources src, st_resources s with
      | None, None => True
      | Some a, Some b => RightLimit (re_limits a) (er_limits b) /\ RightLimit (re_requests a) (er_requests b)
      | _, _ => False
      end
  end.
