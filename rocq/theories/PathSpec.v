(** Independent vocabulary for file names: white space, components, plain components. *)
From Verif Require Import Base.

(** The 25 characters of Unicode property White_Space, as UTF-8. *)
Definition space_chars : list bytes :=
  [ [9]; [10]; [11]; [12]; [13]; [32]; [194; 133]; [194; 160]; [225; 154; 128];
    [226; 128; 128]; [226; 128; 129]; [226; 128; 130]; [226; 128; 131]; [226; 128; 132];
    [226; 128; 133]; [226; 128; 134]; [226; 128; 135]; [226; 128; 136]; [226; 128; 137];
    [226; 128; 138]; [226; 128; 168]; [226; 128; 169]; [226; 128; 175]; [226; 129; 159];
    [227; 128; 128] ].

(** A string of white space. *)
Definition blank (s : bytes) : Prop :=
  exists cs, (forall c, In c cs -> In c space_chars) /\ s = concat cs.

(** A name component that must not be used: nothing, one dot or two dots, possibly
    surrounded by white space. *)
Definition dotty (c : bytes) : Prop :=
  exists p t q, c = p ++ t ++ q /\ blank p /\ blank q /\
    (t = [] \/ t = s2b "." \/ t = s2b "..").

(** [path cs]: the components joined by "/". *)
Definition path (cs : list bytes) : bytes :=
  match cs with
  | [] => []
  | c :: cs' => c ++ concat (map (fun d => s2b "/" ++ d) cs')
  end.

(** [cs] are the components of [name]: joined they give the name, none contains "/". *)
Definition components_of (name : bytes) (cs : list bytes) : Prop :=
  cs <> [] /\ name = path cs /\ forall c, In c cs -> ~ In 47 c.

(** [keeps P cs ks]: [ks] are the elements of [cs] satisfying [P], in order. *)
Inductive keeps (P : bytes -> Prop) : list bytes -> list bytes -> Prop :=
| K_nil : keeps P [] []
| K_keep c cs ks : P c -> keeps P cs ks -> keeps P (c :: cs) (c :: ks)
| K_drop c cs ks : ~ P c -> keeps P cs ks -> keeps P (c :: cs) ks.

(** A clean relative path. *)
Definition clean (name : bytes) : Prop :=
  exists cs, components_of name cs /\ forall c, In c cs -> ~ dotty c.

(** Number of separators in a name. *)
Definition separators (name : bytes) : N := N.of_nat (count_occ N.eq_dec name 47).
