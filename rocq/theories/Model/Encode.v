(** * Encode.v: settings as strings (yaml/compiler/encode.go) and resources
    (yaml/compiler/convert.go 72-97). *)
From Coq Require Import Floats.SpecFloat.
From Verif Require Import Model.Go Model.Types Model.Engine.

(** strconv.FormatBool. *)
Definition formatBool (b : bool) : string := if b then "true" else "false".

Section Encode.
  (** strconv.FormatFloat(v, 'g', -1, 64). *)
  Variable formatFloat : float64 -> string.
  (** json.YAMLToJSON(yaml.Marshal(v)): the yaml and JSON libraries are outside the model. *)
  Variable toJSON : value -> string.

  (** The text yaml.Marshal writes for a scalar and yaml.Unmarshal reads back into a string;
      [None] for a sequence or mapping, which does not decode into a string. The yaml library
      is taken to read back the strings it writes. *)
  Definition yamlFloat (f : float64) : string :=
    let s := formatFloat f in
    if String.eqb s "+Inf" then ".inf" else if String.eqb s "-Inf" then "-.inf"
    else if String.eqb s "NaN" then ".nan" else s.
  Definition scalarText (v : value) : option string :=
    match v with
    | VNull => Some ""
    | VBool b => Some (formatBool b)
    | VInt z => Some (itoa z)
    | VFloat f => Some (yamlFloat f)
    | VStr s => Some s
    | VList _ | VMap _ => None
    end.
  Fixpoint scalarTexts (l : list value) : option (list string) :=
    match l with
    | [] => Some []
    | v :: l' => match scalarText v, scalarTexts l' with Some t, Some ts => Some (t :: ts) | _, _ => None end
    end.
  (** yaml/compiler/encode.go 57-67. *)
  Definition encodeSlice (l : list value) : string :=
    match scalarTexts l with
    | Some ts => join "," ts
    | None => toJSON (VList l)
    end.
  (** yaml/compiler/encode.go 50-54. *)
  Definition encodeMap (v : value) : string := toJSON v.
  (** yaml/compiler/encode.go 30-47. []byte does not occur in decoded yaml. *)
  Definition encode (v : value) : string :=
    match v with
    | VStr s => s
    | VBool b => formatBool b
    | VInt z => itoa z
    | VFloat f => formatFloat f
    | VList l => encodeSlice l
    | VMap _ | VNull => encodeMap v
    end.
End Encode.

(** The conversion int64(f). A result outside the range of int64 is implementation-specific
    in Go; this is what amd64 gives. *)
Definition int64Min : Z := (- 2 ^ 63)%Z.
Definition toInt64 (z : Z) : Z := if (Z.leb int64Min z && Z.ltb z (2 ^ 63))%Z then z else int64Min.
Definition magnitude (m : positive) (e : Z) : Z :=
  match e with
  | Z0 => Zpos m
  | Zpos p => (Zpos m * 2 ^ Zpos p)%Z
  | Zneg p => (Zpos m / 2 ^ Zpos p)%Z
  end.
Definition int64_of_float (f : float64) : Z :=
  match f with
  | S754_zero _ => 0%Z
  | S754_finite s m e => let a := magnitude m e in toInt64 (if s then (- a)%Z else a)
  | S754_infinity _ | S754_nan => int64Min
  end.
Definition float1000 : float64 := S754_finite false 8796093022208000 (-43).
(** yaml/compiler/convert.go 92-97. *)
Definition toCPUMillis (f : float64) : Z :=
  int64_of_float (if SFltb (S754_zero false) f then SFmul 53 1024 f float1000 else f).
(** yaml/compiler/convert.go 82-90. *)
Definition toResourceObject (from : option ResourceObject) : option EResourceObject :=
  match from with
  | None => None
  | Some r => Some {| eo_cpu := toCPUMillis (ro_cpu r); eo_memory := ro_memory r |}
  end.
(** yaml/compiler/convert.go 72-80. *)
Definition toResources (from : Container) : option EResources :=
  match ct_resources from with
  | None => None
  | Some r => Some {| er_limits := toResourceObject (re_limits r); er_requests := toResourceObject (re_requests r) |}
  end.
