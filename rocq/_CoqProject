-Q theories Verif

theories/Base.v
theories/Disco.v
theories/DiscoProofs.v
theories/Records.v
theories/RecordProofs.v
theories/RecordRT.v
theories/RecordSound.v
theories/Layout.v
theories/RealRound.v
theories/RealProofs.v
theories/Spec.v
theories/Normal.v
theories/LineFacts.v
theories/PropRecords.v
theories/PropRecords2.v
theories/PropRecords3.v
theories/PropFields.v
theories/Tree.v
theories/TreeSpec.v
theories/TreeProofs.v
theories/TreeGrammar.v
theories/TreeMaps.v
theories/PropTree.v
theories/PropTree2.v
theories/Nested.v
theories/EditSpec.v
theories/PropEdit.v
theories/PropEdit2.v
theories/PropClean.v
theories/Sections.v
theories/SecSpec.v
theories/Codec.v
theories/SectionProofs.v
theories/SecLong.v
theories/Sec1.v
theories/Sec1Spec.v
theories/Sec1Proofs.v
theories/ExKit.v
theories/PropSec1.v
theories/Sec451.v
theories/Sec451Spec.v
theories/Sec451Proofs.v
theories/PropSec451.v
theories/Typed.v
theories/TypedSpec.v
theories/TypedProofs.v
theories/PropTyped.v
theories/PropTyped2.v
theories/PropTyped3.v
theories/PropAgree.v
theories/Sec4.v
theories/Sec4Spec.v
theories/Sec4Proofs.v
theories/PropSec4.v
theories/Sec6.v
theories/Sec6Spec.v
theories/Sec6Proofs.v
theories/Sec6Safe.v
theories/PropSec6.v
theories/Sec33.v
theories/Sec33Spec.v
theories/Sec33Proofs.v
theories/Sec33Safe.v
theories/PropSec33.v
theories/Sec8.v
theories/Sec8Spec.v
theories/Sec8Proofs.v
theories/PropSec8.v
theories/Sec7.v
theories/Sec7Spec.v
theories/Sec7Proofs.v
theories/PropSec7.v
theories/Sec2.v
theories/Sec2Spec.v
theories/Sec2Proofs.v
theories/PropSec2.v
theories/Sec28.v
theories/Sec28Proofs.v
theories/PropSec28.v
theories/Sec32.v
theories/Sec32Corr.v
theories/Sec32Spec.v
theories/Sec32Proofs.v
theories/Sec32Safe.v
theories/Sec32Local.v
theories/PropSec32.v
theories/PropSec32b.v
theories/PropSec32c.v
theories/PropHeads.v
theories/PropInner.v
theories/Views.v
theories/PropViews.v
theories/PropParts.v
theories/Parts.v
theories/PropNamed.v
theories/Fission.v
theories/PropFission.v
theories/Law1.v
theories/PropLaw1.v
theories/Equal.v
theories/PropEqual.v
theories/Classes.v
theories/PropClasses.v
theories/PropAgree2.v
theories/Make.v
theories/PropMake.v
theories/Parse.v
theories/PropParse.v
theories/SecKit.v
theories/CodecKit.v
theories/Sec9.v
theories/Sec9Spec.v
theories/Sec9Proofs.v
theories/PropSec9.v
theories/Descr.v
theories/PropDescr.v
theories/Py.v
theories/PropPy.v
theories/TypedEdit.v
theories/PropTypedEdit.v
theories/PropSave.v
theories/PyTree.v
theories/PropPyTree.v
theories/PropOpens.v
theories/PropRefuted.v
theories/PropSkip.v
theories/PropNested.v
theories/PropTrunc.v
theories/PropLayout.v
theories/PropMake2.v
theories/PropRegions.v
theories/Rounded.v
theories/RoundProofs.v
theories/RoundSecs.v
theories/PropRound.v
theories/PropCarry.v
theories/PropCut.v
theories/PropCut2.v
theories/Keeps.v
theories/KeepsTree.v
theories/PropCols.v
theories/PropPad.v
theories/PropPadTree.v
theories/PropOrder.v
theories/PropPadSend.v
theories/PropAtoms.v
theories/PropLocal.v
theories/PropFile30.v
