(* Model of /repo/src/structures/008_port_connector.rs *)
From Verif Require Import Base G_Enums M_Raw.
Local Open Scope N_scope.

(* 008_port_connector.rs:18-33 `struct PortConnector` *)
Record PortConnector := {
  port_handle : N;
  port_internal_reference_designator : text;
  port_internal_connector_type : ConnectorType;
  port_external_reference_designator : text;
  port_external_connector_type : ConnectorType;
  port_port_type : PortType
}.

(* 008_port_connector.rs:128-150 `PortConnector::try_from`; packed layout of 5 bytes *)
Definition PortConnector_try_from (c : cfg) (r : RawStructure) : out (res PortConnector) :=
  let! p := read_packed c 5 r in
  let? internal_reference_designator := Val (find_string r (at_ 0 1 p)) in
  let? external_reference_designator := Val (find_string r (at_ 2 1 p)) in
  Val (Ok {|
    port_handle := handle r;
    port_internal_reference_designator := internal_reference_designator;
    port_internal_connector_type := ConnectorType_from (at_ 1 1 p);
    port_external_reference_designator := external_reference_designator;
    port_external_connector_type := ConnectorType_from (at_ 3 1 p);
    port_port_type := PortType_from (at_ 4 1 p)
  |}).
