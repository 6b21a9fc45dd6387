(** * #[derive(Component)] (shard_ecs_derive/src/lib.rs)

    A Rust type that is an instance of a declaration: the modules around the
    declaration, its identifier (UTF-8 bytes), and the generic arguments. *)
From Verif Require Export DescrModel.
Local Open Scope N_scope.

Inductive rtype := RType (path : list (list N)) (ident : list N) (args : list rtype).
Definition rt_ident (t : rtype) : list N := match t with RType _ i _ => i end.

(** lib.rs:9-13: [impl<..> Component for ident<..> { const NAME = stringify!(ident); }]:
    the name is the identifier alone. *)
Definition derived_name (t : rtype) : list N := rt_ident t.
(** The component type: [tag] tells Rust types apart ([TypeId]); size and alignment
    are those of the type; the id is the default one (component.rs:15). *)
Definition derived_ctype (be : bool) (tag : rtype -> N) (layout : rtype -> N * N) (t : rtype) : ctype :=
  CType (tag t) (default_component_id be (derived_name t)) (layout t).1 (layout t).2.
