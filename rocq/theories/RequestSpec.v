(** Which requests the check of a server may send: the endpoints of the service specifications of IDTA-01002-3-0 (HTTP/REST
    API) with their query parameters, and the values of the parameters. *)
From Coq Require Import PeanoNat String List NArith ZArith Bool.
From Verif Require Import PyStr PyBase CodecSpec HttpModel ApiSuites.
Import ListNotations.
Local Open Scope string_scope.
Local Open Scope list_scope.

(** ** Paths *)
(** fixed text, the identifier of a shell or of a submodel, the path of an element inside of a submodel *)
Inductive segment := Fixed (s : str) | Identifier | ElementPath.
Definition template := list segment.
(** identifiers are encoded in base64url; besides them a text that is none is sent *)
Definition not_an_identifier : str := lit "invalid-base64url=====".
Definition Encoded (t : str) : Prop := (exists raw, base64url_decode t = Some raw) \/ t = not_an_identifier.
Inductive Matches : template -> str -> Prop :=
| M_nil : Matches [] []
| M_fixed s t p : Matches t p -> Matches (Fixed s :: t) (s ++ p)
| M_identifier x t p : Encoded x -> Matches t p -> Matches (Identifier :: t) (x ++ p)
| M_path x t p : Matches t p -> Matches (ElementPath :: t) (x ++ p).

(** ** Parameters *)
(** the texts that are sent as values of a query parameter *)
Inductive Given : str -> str -> Prop :=
| G_limit t : In t [lit "1"; lit "-1"] -> Given (lit "limit") t
| G_id_short t : Given (lit "idShort") t
| G_encoded n t : In n [lit "assetIds"; lit "aasIds"; lit "submodelIds"] -> Encoded t -> Given n t
| G_level t : In t [lit "core"; lit "deep"; lit "#####"] -> Given (lit "level") t
| G_extent t : In t [lit "withBlobValue"; lit "withoutBlobValue"; lit "#####"; lit "#################"] -> Given (lit "extent") t
| G_descriptions t : In t [lit "True"; lit "invalid-bool"] -> Given (lit "includeConceptDescriptions") t.

(** ** Endpoints *)
Record place := Place { p_template : template; p_parameters : list str }.
Definition F (s : string) : segment := Fixed (lit s).
Definition at_ (t : template) (parameters : list string) : place := Place t (List.map lit parameters).
(** the elements of the submodel with the path [t] *)
Definition element_places (t : string -> template) : list place :=
  [at_ (t "/submodel-elements") ["level"; "extent"; "limit"; "cursor"];
   at_ (t "/submodel-elements/$metadata") ["limit"; "cursor"];
   at_ (t "/submodel-elements/$value") ["level"; "limit"; "cursor"];
   at_ (t "/submodel-elements/$reference") ["limit"; "cursor"];
   at_ (t "/submodel-elements/$path") ["level"; "limit"; "cursor"];
   at_ (t "/submodel-elements/" ++ [ElementPath]) ["level"; "extent"];
   at_ (t "/submodel-elements/" ++ [ElementPath; F "/$metadata"]) [];
   at_ (t "/submodel-elements/" ++ [ElementPath; F "/$value"]) ["level"; "extent"];
   at_ (t "/submodel-elements/" ++ [ElementPath; F "/$reference"]) [];
   at_ (t "/submodel-elements/" ++ [ElementPath; F "/$path"]) ["level"];
   at_ (t "/submodel-elements/" ++ [ElementPath; F "/attachment"]) []].
(** the submodels below the path [t] *)
Definition submodel_places (t : string -> template) : list place :=
  [at_ (t "/submodels/" ++ [Identifier]) ["level"; "extent"];
   at_ (t "/submodels/" ++ [Identifier; F "/$metadata"]) [];
   at_ (t "/submodels/" ++ [Identifier; F "/$value"]) ["level"; "extent"];
   at_ (t "/submodels/" ++ [Identifier; F "/$reference"]) [];
   at_ (t "/submodels/" ++ [Identifier; F "/$path"]) ["level"]].
(** the information in the shell with the path [t] *)
Definition shell_places (t : string -> template) : list place :=
  [at_ (t "/$reference") [];
   at_ (t "/asset-information") [];
   at_ (t "/asset-information/thumbnail") [];
   at_ (t "/submodel-refs") ["limit"; "cursor"]].
Definition root (s : string) : template := [F s].
Definition common_places : list place :=
  [at_ (root "/serialization") ["aasIds"; "submodelIds"; "includeConceptDescriptions"]; at_ (root "/description") []].

Definition shells : place := at_ (root "/shells") ["limit"; "cursor"; "idShort"; "assetIds"].
Definition below_shell (s : string) : template := [F "/shells/"; Identifier; F s].
Definition below_shell_submodel (s : string) : template := [F "/shells/"; Identifier; F "/submodels/"; Identifier; F s].
Definition shell_repository : list place :=
  shells :: at_ (root "/shells/$reference") ["limit"; "cursor"; "idShort"; "assetIds"] ::
  at_ [F "/shells/"; Identifier] [] :: shell_places below_shell ++ submodel_places below_shell ++ element_places below_shell_submodel ++
  common_places.
Definition below_submodel (s : string) : template := [F "/submodels/"; Identifier; F s].
Definition submodel_repository : list place :=
  List.map (fun s => at_ (root s) ["limit"; "cursor"])
    ["/submodels"; "/submodels/$metadata"; "/submodels/$value"; "/submodels/$reference"; "/submodels/$path"] ++
  submodel_places root ++ element_places below_submodel ++ common_places.
Definition below_aas (s : string) : template := [Fixed (lit "/aas" ++ lit s)].
Definition below_aas_submodel (s : string) : template := [F "/aas/submodels/"; Identifier; F s].
Definition shell_service : list place :=
  at_ (root "/aas") [] :: shell_places below_aas ++ submodel_places below_aas ++ element_places below_aas_submodel ++ common_places.
Definition below_the_submodel (s : string) : template := [Fixed (lit "/submodel" ++ lit s)].
Definition submodel_service : list place :=
  at_ (root "/submodel") ["level"; "extent"] :: at_ (root "/submodel/$metadata") [] :: at_ (root "/submodel/$value") ["level"; "extent"] ::
  at_ (root "/submodel/$reference") [] :: at_ (root "/submodel/$path") ["level"] :: element_places below_the_submodel ++ common_places.

(** the first request goes to the address itself *)
Definition address : place := at_ [] [].
(** The endpoints of a suite, and paths that are none but are requested by its tests *)
Definition published : list (str * (list place * list place)) :=
  [(ssp "AssetAdministrationShellRepositoryServiceSpecification/SSP-002", (shell_repository, []));
   (ssp "SubmodelRepositoryServiceSpecification/SSP-002",
     (submodel_repository, [at_ (root "/shells") ["limit"; "cursor"; "idShort"; "assetIds"]]));
   (ssp "AssetAdministrationShellServiceSpecification/SSP-002",
     (shell_service,
      [at_ (root "/") []; at_ (root "/aas/") []; at_ (root "/aas/shells") ["limit"; "cursor"; "idShort"; "assetIds"];
       at_ (root "/aas/serialization") ["aasIds"; "submodelIds"; "includeConceptDescriptions"]]));
   (ssp "SubmodelServiceSpecification/SSP-002",
     (submodel_service,
      [at_ (root "/submodel/") []; at_ (root "/submodel/shells") ["limit"; "cursor"; "idShort"; "assetIds"];
       at_ (root "/submodel/serialization") ["aasIds"; "submodelIds"; "includeConceptDescriptions"]]))].

(** ** Requests *)
(** path and query of a request to one of the places *)
Definition Asks_for (l : list place) (u : str) : Prop :=
  exists pl p ps, In pl l /\ Matches (p_template pl) p /\
    Forall (fun kv => In (fst kv) (p_parameters pl) /\ Given (fst kv) (snd kv)) ps /\
    (ps = [] /\ u = p \/ exists q, u = p ++ 63%N :: q /\ parse_query q = Some ps).
(** the prefix that is removed from all paths *)
Definition Prefixed (prefix u : str) : Prop := exists rest, u = prefix ++ rest /\ (rest = [] \/ exists t, rest = 47%N :: t).
Definition Reduced (prefix u v : str) : Prop := Prefixed prefix u /\ u = prefix ++ v \/ ~ Prefixed prefix u /\ v = u.
(** the address without a slash at its end *)
Definition Base (host h : str) : Prop := host = h ++ [47%N] \/ host = h /\ forall g, host <> g ++ [47%N].
Definition Request_to (l : list place) (c : client) (s : sent) : Prop :=
  exists h u v, Base (host c) h /\ Asks_for l u /\ Reduced (remove_path_prefix c) u v /\ s_url s = h ++ v /\
    s_method s = lit "get" /\ s_data s = None /\ s_verify s = verify c.
