(** JSON trees ([serde_json::Value]) as far as the code uses them. The text of a tree (printing and parsing) is the crate's. *)
From stdpp Require Import strings.
From Verif Require Import Base M_Atom.
Open Scope string_scope.
Open Scope list_scope.
Open Scope Z_scope.

(** [serde_json::Value]. Integers and floats are different kinds of numbers, also in the text (a float is printed with a point or an exponent).
    A float is an [f32] here: all floats that are written are, the wider [f64] of the tree represents them exactly, and reading converts back.
    An object has its keys in order, as the crate's map has. *)
Inductive json :=
| JNull | JBool (b : bool) | JInt (z : Z) | JFloat (v : f32) | JStr (s : string) | JArr (l : list json) | JObj (l : list (string * json)).

(** [f32::is_finite], by the exponent bits *)
Definition f32_finite (v : f32) : bool := negb ((v / 2 ^ 23) mod 256 =? 255).
(** [json!(v)] of an [f32]: numbers that are not finite become [null] *)
Definition jf32 (v : f32) : json := if f32_finite v then JFloat v else JNull.
Definition jnat (n : nat) : json := JInt (Z.of_nat n).

(** [v\[i\]] and [v\["key"\]]: [null] if there is none *)
Definition jidx (v : json) (i : nat) : json := match v with JArr l => default JNull (l !! i) | _ => JNull end.
Fixpoint obj_get (l : list (string * json)) (k : string) : option json :=
  match l with [] => None | (k', v) :: l => if String.eqb k' k then Some v else obj_get l k end.
(** [v.get("key")] *)
Definition jget (v : json) (k : string) : option json := match v with JObj l => obj_get l k | _ => None end.
Definition jkey (v : json) (k : string) : json := default JNull (jget v k).

(** [as_i64]/[is_i64], [as_f64] followed by [as f32] ([i2f] converts an integer), [as_str], [as_bool], [is_object] *)
Definition as_i64 (v : json) : option Z :=
  match v with JInt z => if (- 2 ^ 63 <=? z) && (z <? 2 ^ 63) then Some z else None | _ => None end.
Definition as_f32 (i2f : Z -> f32) (v : json) : option f32 := match v with JInt z => Some (i2f z) | JFloat f => Some f | _ => None end.
Definition as_str (v : json) : option string := match v with JStr s => Some s | _ => None end.
Definition as_bool (v : json) : option bool := match v with JBool b => Some b | _ => None end.
Definition is_obj (v : json) : bool := match v with JObj _ => true | _ => false end.
Definition elems (v : json) : list json := match v with JArr l => l | _ => [] end.

(** [as] between integer types: [i64 as usize], [usize as i64], [as i16], [as i32], [as u8] *)
Definition to_usize (z : Z) : nat := Z.to_nat (z mod 2 ^ 64).
Definition to_i64 (z : Z) : Z := (z + 2 ^ 63) mod 2 ^ 64 - 2 ^ 63.
Definition to_i32 (z : Z) : Z := (z + 2 ^ 31) mod 2 ^ 32 - 2 ^ 31.
Definition to_i16 (z : Z) : Z := (z + 2 ^ 15) mod 2 ^ 16 - 2 ^ 15.
Definition to_u8 (z : Z) : Z := z mod 256.
(** [v.as_i64().unwrap_or(d) as usize] *)
Definition usize_of (v : json) (d : Z) : nat := to_usize (default d (as_i64 v)).
