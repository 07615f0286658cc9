(** What it means that a document is valid for a schema: the part of XML Schema
    1.0 the ADES schemas use.  A content model is read as the language of child
    lists it describes.  How values are compared with facets (patterns, ranges,
    lengths, enumerations) is left to a parameter [F]: F (t, steps) s says that
    the text s is in the built-in type t and satisfies the facets of each step of
    restriction.  Not covered: xsi: attributes, default values, identity
    constraints, restrictions of unions (the ADES schemas have none). *)
From Coq Require Export Permutation.
From Verif Require Export AdesTables.

Definition facets := list (str * str).
Definition derivation := (str * list facets)%type.

(** the component of a schema with this kind and name *)
Definition component (S : xml) (kind name : str) : option xml :=
  find (fun c => has_tag kind c && attr_is $"name" name c) (xkids S).
Definition builtin (t : str) : bool := streqb (firstn 4 t) $"xsd:".
Definition facets_of (r : xml) : facets := map (fun f => (xtag f, attr_text $"value" f)) (xkids r).
Definition is_particle (x : xml) : bool := smem (xtag x) [$"xsd:sequence"; $"xsd:choice"; $"xsd:all"].
Definition blank_text (s : str) : bool := forallb pyspace s.

(** minOccurs and maxOccurs allow n times *)
Definition occurs (p : xml) (n : nat) : Prop :=
  (attr_is $"minOccurs" $"0" p = true \/ 1 <= n)%nat /\ (attr_is $"maxOccurs" $"unbounded" p = true \/ n <= 1)%nat.

Section Valid.
Variable F : derivation -> str -> Prop.
Variable S : xml.

(** simple types *)
Inductive derives : str -> derivation -> Prop :=
| der_builtin t : builtin t = true -> derives t (t, [])
| der_restriction t st r b d : component S $"xsd:simpleType" t = Some st ->
    In r (xkids st) -> xtag r = $"xsd:restriction" -> derives (attr_text $"base" r) (b, d) ->
    derives t (b, facets_of r :: d).
Inductive simple : str -> str -> Prop :=
| simple_derived t d s : derives t d -> F d s -> simple t s
| simple_union t st u m s : component S $"xsd:simpleType" t = Some st ->
    In u (xkids st) -> xtag u = $"xsd:union" -> In m (split_ws (attr_text $"memberTypes" u)) -> simple m s -> simple t s.

(** attributes: all declared, all required ones there *)
Definition attributes_ok (ct : xml) (a : list (str * str)) : Prop :=
  (forall k v, In (k, v) a -> exists d, In d (xkids ct) /\ xtag d = $"xsd:attribute" /\
     attr $"name" d = Some k /\ simple (attr_text $"type" d) v) /\
  (forall d, In d (xkids ct) -> xtag d = $"xsd:attribute" -> attr_is $"use" $"required" d = true ->
     exists v, In (attr_text $"name" d, v) a).

(** elements and content *)
Inductive valid_type : str -> xml -> Prop :=
| valid_simple t e : simple t (xtext e) -> xkids e = [] -> xattrs e = [] -> valid_type t e
| valid_complex t ct e : component S $"xsd:complexType" t = Some ct -> blank_text (xtext e) = true ->
    attributes_ok ct (xattrs e) -> sequence (filter is_particle (xkids ct)) (xkids e) -> valid_type t e
(** one particle, with its minOccurs and maxOccurs *)
with particle : xml -> list xml -> Prop :=
| particle_times p n ks : times p n ks -> occurs p n -> particle p ks
with times : xml -> nat -> list xml -> Prop :=
| times_0 p : times p 0 []
| times_S p n a b : term p a -> times p n b -> times p (Datatypes.S n) (a ++ b)
with sequence : list xml -> list xml -> Prop :=
| sequence_nil : sequence [] []
| sequence_cons p ps a b : particle p a -> sequence ps b -> sequence (p :: ps) (a ++ b)
with term : xml -> list xml -> Prop :=
| term_ref p r d e : xtag p = $"xsd:element" -> attr $"ref" p = Some r -> component S $"xsd:element" r = Some d ->
    xtag e = r -> valid_type (attr_text $"type" d) e -> term p [e]
| term_local p n t e : xtag p = $"xsd:element" -> attr $"ref" p = None -> attr $"name" p = Some n -> attr $"type" p = Some t ->
    xtag e = n -> valid_type t e -> term p [e]
| term_group p r g ks : xtag p = $"xsd:group" -> attr $"ref" p = Some r -> component S $"xsd:group" r = Some g ->
    sequence (xkids g) ks -> term p ks
| term_sequence p ks : xtag p = $"xsd:sequence" -> sequence (xkids p) ks -> term p ks
| term_choice p q ks : xtag p = $"xsd:choice" -> In q (xkids p) -> particle q ks -> term p ks
| term_all p ks ks' : xtag p = $"xsd:all" -> Permutation ks ks' -> sequence (xkids p) ks' -> term p ks
| term_any p e : xtag p = $"xsd:any" -> laxly [e] -> term p [e]
(** processContents="lax": elements that are declared must be valid *)
with laxly : list xml -> Prop :=
| lax_nil : laxly []
| lax_known e d l : component S $"xsd:element" (xtag e) = Some d -> valid_type (attr_text $"type" d) e -> laxly l -> laxly (e :: l)
| lax_unknown e l : component S $"xsd:element" (xtag e) = None -> laxly (xkids e) -> laxly l -> laxly (e :: l).

(** the root may be any declared element *)
Definition valid (e : xml) : Prop :=
  exists d, component S $"xsd:element" (xtag e) = Some d /\ valid_type (attr_text $"type" d) e.
End Valid.
