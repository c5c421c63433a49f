(** A reader of Wavefront OBJ text: vertices, texture coordinates and triangles
    whose corners name a vertex and the texture coordinate of the same number. *)
From Verif Require Import Machine FloatModel PathSpec.

Fixpoint split (sep : Z) (s : list Z) : list (list Z) :=
  match s with
  | [] => [[]]
  | c :: s => if c =? sep then [] :: split sep s
              else match split sep s with h :: t => (c :: h) :: t | [] => [[c]] end
  end.

Record mesh := Mesh { m_positions : list f32; m_uvs : list f32; m_tris : list Z }.

Section Read.
(** Reading a decimal number as f32. *)
Variable parse : list Z -> option f32.

Fixpoint read_floats (ts : list (list Z)) : option (list f32) :=
  match ts with
  | [] => Some []
  | t :: ts => match parse t, read_floats ts with Some f, Some fs => Some (f :: fs) | _, _ => None end
  end.
(** The number of a vertex; OBJ counts from one. *)
Definition read_corner (t : list Z) : option Z :=
  match split 47 t with
  | [a; b] => match read_digits 0 a, read_digits 0 b with
              | Some n, Some m => if (n =? m) && (1 <=? n) then Some (n - 1) else None
              | _, _ => None
              end
  | _ => None
  end.
Definition read_line (line : list Z) (m : mesh) : option mesh :=
  match split 32 line with
  | [[]] => Some m
  | [35] :: _ => Some m
  | [[118]; a; b; c] => option_map (fun fs => Mesh (m_positions m ++ fs) (m_uvs m) (m_tris m)) (read_floats [a; b; c])
  | [[118; 116]; a; b] => option_map (fun fs => Mesh (m_positions m) (m_uvs m ++ fs) (m_tris m)) (read_floats [a; b])
  | [[102]; a; b; c] =>
      match read_corner a, read_corner b, read_corner c with
      | Some i, Some j, Some k => Some (Mesh (m_positions m) (m_uvs m) (m_tris m ++ [i; j; k]))
      | _, _, _ => None
      end
  | _ => None
  end.
Fixpoint read_lines (ls : list (list Z)) (m : mesh) : option mesh :=
  match ls with
  | [] => Some m
  | l :: ls => match read_line l m with Some m => read_lines ls m | None => None end
  end.
Definition read_obj (text : list Z) : option mesh := read_lines (split 10 text) (Mesh [] [] []).
End Read.

(** What a list has in full groups of [k]. *)
Definition groups {A} (k : nat) (l : list A) : list A := firstn (k * (length l / k)) l.
(** Printing is read back, and is one word. *)
Definition prints (show : f32 -> list Z) (parse : list Z -> option f32) (f : f32) : Prop :=
  parse (show f) = Some f /\ ~ In 10 (show f) /\ ~ In 32 (show f).
