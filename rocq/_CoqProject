-Q theories Verif
theories/Model_Core.v
theories/Model_Decimal.v
theories/Model_Energy.v
theories/Model_Factory.v
theories/Model_Fault.v
theories/Model_Float.v
theories/Model_Geometry.v
theories/Model_Groups.v
theories/Model_Heap.v
theories/Model_Identity.v
theories/Model_Ignore.v
theories/Model_Invalid.v
theories/Model_ItemText.v
theories/Model_Iter.v
theories/Model_Json.v
theories/Model_JsonText.v
theories/Model_JsonTold.v
theories/Model_Links.v
theories/Model_Machine.v
theories/Model_Mesh.v
theories/Model_Message.v
theories/Model_Mutate.v
theories/Model_Py.v
theories/Model_Repair.v
theories/Model_Repr.v
theories/Model_RouteTold.v
theories/Model_Routing.v
theories/Model_Str.v
theories/Model_SubsetKeys.v
theories/Model_Subsets.v
theories/Model_SubsetsIter.v
theories/Model_Summary.v
theories/Model_SummaryText.v
theories/Model_Text.v
theories/Model_Told.v
theories/Model_Torn.v
theories/Model_Version.v
theories/Model_View.v
theories/Model_ViewObjects.v
theories/Model_ViewTold.v
theories/Model_Virtual.v
theories/Model_VirtualTold.v
theories/Model_Wrap.v
theories/Proof_Again.v
theories/Proof_Alike.v
theories/Proof_Board.v
theories/Proof_Concentric.v
theories/Proof_Counts.v
theories/Proof_Decimal.v
theories/Proof_Double.v
theories/Proof_Energy.v
theories/Proof_Factory.v
theories/Proof_Faultfree.v
theories/Proof_Float.v
theories/Proof_Heap.v
theories/Proof_Items.v
theories/Proof_Iter.v
theories/Proof_IterMend.v
theories/Proof_Json.v
theories/Proof_JsonRead.v
theories/Proof_JsonText.v
theories/Proof_Links.v
theories/Proof_Machine.v
theories/Proof_Py.v
theories/Proof_Repair.v
theories/Proof_RepairEnd.v
theories/Proof_RepairOff.v
theories/Proof_Report.v
theories/Proof_Repr.v
theories/Proof_Routing.v
theories/Proof_Str.v
theories/Proof_Subsets.v
theories/Proof_Summary.v
theories/Proof_Version.v
theories/Proof_View.v
theories/Proof_Virtual.v
theories/Proof_VirtualMachine.v
theories/Proof_Walk.v
theories/Proof_Wrap.v
theories/Prop_Again.v
theories/Prop_Alike.v
theories/Prop_Back.v
theories/Prop_Board.v
theories/Prop_Chain.v
theories/Prop_Counts.v
theories/Prop_Data.v
theories/Prop_Detour.v
theories/Prop_Down.v
theories/Prop_Energy.v
theories/Prop_Factory.v
theories/Prop_Far.v
theories/Prop_Fault.v
theories/Prop_Geometry.v
theories/Prop_Groups.v
theories/Prop_Heap.v
theories/Prop_Identity.v
theories/Prop_Invalid.v
theories/Prop_ItemText.v
theories/Prop_Items.v
theories/Prop_Iter.v
theories/Prop_Json.v
theories/Prop_JsonRead.v
theories/Prop_JsonRepaired.v
theories/Prop_JsonText.v
theories/Prop_JsonTold.v
theories/Prop_JsonWrite.v
theories/Prop_Left.v
theories/Prop_Links.v
theories/Prop_Machine.v
theories/Prop_Message.v
theories/Prop_Mutate.v
theories/Prop_Nearest.v
theories/Prop_OnBoard.v
theories/Prop_Order.v
theories/Prop_Parse.v
theories/Prop_Physical.v
theories/Prop_Quads.v
theories/Prop_Quote.v
theories/Prop_Refused.v
theories/Prop_Repair.v
theories/Prop_RepairLess.v
theories/Prop_RepairOnce.v
theories/Prop_Repr.v
theories/Prop_ReprExact.v
theories/Prop_Returns.v
theories/Prop_Rounds.v
theories/Prop_RouteTold.v
theories/Prop_Router.v
theories/Prop_Routes.v
theories/Prop_Routing.v
theories/Prop_Sizes.v
theories/Prop_Straight.v
theories/Prop_SubsetKeys.v
theories/Prop_SubsetObjects.v
theories/Prop_Subsets.v
theories/Prop_SubsetsIter.v
theories/Prop_Tally.v
theories/Prop_Text.v
theories/Prop_Told.v
theories/Prop_Torn.v
theories/Prop_Version.v
theories/Prop_View.v
theories/Prop_ViewObjects.v
theories/Prop_ViewTold.v
theories/Prop_Virtual.v
theories/Prop_VirtualTold.v
theories/Prop_Walk.v
theories/Prop_Wiring.v
theories/Spec_Again.v
theories/Spec_Alike.v
theories/Spec_Board.v
theories/Spec_Boards.v
theories/Spec_Counts.v
theories/Spec_Decimal.v
theories/Spec_Detour.v
theories/Spec_Down.v
theories/Spec_Energy.v
theories/Spec_Factory.v
theories/Spec_Fault.v
theories/Spec_Groups.v
theories/Spec_Heap.v
theories/Spec_Hops.v
theories/Spec_Invalid.v
theories/Spec_ItemText.v
theories/Spec_Items.v
theories/Spec_Iter.v
theories/Spec_Json.v
theories/Spec_JsonRead.v
theories/Spec_JsonText.v
theories/Spec_JsonTold.v
theories/Spec_JsonWrite.v
theories/Spec_Left.v
theories/Spec_Machine.v
theories/Spec_Message.v
theories/Spec_Mutate.v
theories/Spec_Order.v
theories/Spec_Quote.v
theories/Spec_Repair.v
theories/Spec_Rounds.v
theories/Spec_Router.v
theories/Spec_Routing.v
theories/Spec_Str.v
theories/Spec_Straight.v
theories/Spec_SubsetKeys.v
theories/Spec_Subsets.v
theories/Spec_SubsetsIter.v
theories/Spec_Summary.v
theories/Spec_Tally.v
theories/Spec_Told.v
theories/Spec_Version.v
theories/Spec_View.v
theories/Spec_ViewObjects.v
theories/Spec_ViewTold.v
theories/Spec_Virtual.v
theories/Spec_VirtualTold.v
theories/Spec_Walk.v
theories/Spec_Wiring.v
theories/Unit_Base.v
theories/Unit_Core.v
theories/Unit_Data.v
theories/Unit_Json.v
theories/Unit_Machine.v
theories/Unit_Using.v
theories/Unit_Version.v
theories/Unit_Virtual.v
