(** What it means that a structure in the heap holds a value, and what a faithful clone is. *)
From Coq Require Import String ZArith NArith Ascii Bool List Lia.
From Verif Require Import Base Str CloneHeap.
Import ListNotations.
Local Open Scope Z_scope.

(** values: what a program sees when it follows all pointers *)
Inductive tree := Nul | Num (z : Z) | Text (s : str) | Bytes (s : str) | Rec (ts : list tree) | Seq (ts : list tree).

(** a chain of nodes whose elements are strings *)
Inductive hstrs (h : heap) : option addr -> list str -> list addr -> Prop :=
| s_nil : hstrs h None [] []
| s_cons : forall nd a s next ss fps, h nd = Some (BNode (Ptr a) next) -> h a = Some (BText s) -> cut s = s -> hstrs h next ss fps -> hstrs h (Some nd) (s :: ss) (nd :: a :: fps).
(** [holds h k w t fp]: in heap [h] the field content [w] of kind [k] represents the value [t], and [fp] lists
    the blocks reached from it *)
Inductive holds (h : heap) : shape -> word -> tree -> list addr -> Prop :=
| h_str_null : holds h KStr Null Nul []
| h_str : forall a s, h a = Some (BText s) -> cut s = s -> holds h KStr (Ptr a) (Text s) [a]
| h_int : forall z, holds h KInt (Int z) (Num z) []
| h_buf_null : holds h KBuf Null Nul []
| h_buf : forall a s, h a = Some (BText s) -> holds h KBuf (Buf a (length s)) (Bytes s) [a]
| h_rec_null : forall fs, holds h (KRec fs) Null Nul []
| h_rec : forall fs a ws ts fp, h a = Some (BRec ws) -> hfields h fs ws ts fp -> holds h (KRec fs) (Ptr a) (Rec ts) (a :: fp)
| h_list : forall fs first ts fp, hchain h fs first ts fp -> holds h (KList fs) (Lst (length ts) first) (Seq ts) fp
| h_strs : forall first ss fp, hstrs h first ss fp -> holds h KStrs (Lst (length ss) first) (Seq (map Text ss)) fp
with hfields (h : heap) : list shape -> list word -> list tree -> list addr -> Prop :=
| f_nil : hfields h [] [] [] []
| f_cons : forall k w t fp ks ws ts fps, holds h k w t fp -> hfields h ks ws ts fps -> hfields h (k :: ks) (w :: ws) (t :: ts) (fp ++ fps)
with hchain (h : heap) : list shape -> option addr -> list tree -> list addr -> Prop :=
| c_nil : forall fs, hchain h fs None [] []
| c_cons : forall fs nd a us next ts fp fps, h nd = Some (BNode (Ptr a) next) -> holds h (KRec fs) (Ptr a) (Rec us) fp -> hchain h fs next ts fps ->
    hchain h fs (Some nd) (Rec us :: ts) (nd :: fp ++ fps).

(** The copy of the structure [w] (of value [Rec ts], in blocks [fp]) made by [clone]: it has the same value; all its
    blocks, each counted once, were free before; and no other block has been allocated, freed or changed *)
Definition cloned (clone : heap -> word -> res (heap * word)) (fs : list shape) (h : heap) (w : word) (ts : list tree) (fp : list addr) : Prop :=
  exists (h' : heap) w' fp', clone h w = Ok (h', w') /\ holds h' (KRec fs) w' (Rec ts) fp' /\ holds h' (KRec fs) w (Rec ts) fp /\
    NoDup fp' /\ (forall x, In x fp' -> h x = None) /\ (forall x, In x fp -> ~ In x fp') /\ (forall x, ~ In x fp' -> h' x = h x).
