(** * What the printed frame rates and image attributes look like (C79)

    Only definitions. *)
From Coq Require Import List NArith Bool.
From Verif Require Import Str Num Net Types SpecFloat.
Import ListNotations.
Open Scope N_scope.
Open Scope list_scope.

(** Doubles without the sign bit. *)
Definition positive64 (x : f64) : Prop := x < 2 ^ 63.
(** Singles that are whole numbers: magnitudes are in units of 2^-149. *)
Definition whole32 (x : f32) : Prop := exists k, magnitude 23 x = k * 2 ^ 149.
(** The floats of image attributes. *)
Definition of_opt {A} (f : A -> list f32) (o : option A) : list f32 :=
  match o with Some x => f x | None => [] end.
Definition sar_floats (r : s_range) : list f32 :=
  match r with SRange x y => [x; y] | SDiscrete l => l end.
Definition set_floats (s : image_set) : list f32 :=
  of_opt sar_floats (set_sar s) ++ of_opt (fun r => [par_min r; par_max r]) (set_par s) ++ of_opt (fun x => [x]) (set_q s).
Definition list_floats (l : image_set_list) : list f32 :=
  match l with Sets sets => flat_map set_floats sets | SetsWildcard => [] end.
Definition image_floats (a : image_attr) : list f32 := list_floats (img_send a) ++ list_floats (img_recv a).
