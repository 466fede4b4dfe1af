-Q theories Verif

theories/Base.v
theories/GrammarRs.v
theories/Validate.v
theories/Utils.v
theories/Grandfathered.v
theories/Normal.v
theories/LangTag.v
theories/Newtypes.v
theories/Derived.v
theories/Cost.v
theories/Spec.v
theories/Abnf.v
theories/AbnfText.v
theories/Observe.v
theories/RegexEquiv.v
theories/Accept.v
theories/Case.v
theories/AcceptTag.v
theories/Direct.v
theories/Parse.v
theories/Scan.v
theories/Access.v
theories/Iter.v
theories/CaseTag.v
theories/Kind.v
theories/Grammar.v
theories/AbnfEquiv.v
theories/Parts.v
theories/Compose.v
theories/Terminate.v
theories/Order.v
theories/Values.v
theories/More.v
theories/Repair.v
theories/Whole.v
theories/Samples.v
theories/PropsGrammar.v
theories/PropsFile.v
theories/PropsAccess.v
theories/PropsOrder.v
theories/PropsIter.v
theories/PropsValues.v
theories/PropsWhole.v
theories/Checked.v
theories/NoOverflow.v
theories/PropsArith.v
theories/Linear.v
theories/PropsCost.v
theories/RepoTests.v
theories/RustText.v
theories/RustSyntax.v
theories/RustEval.v
theories/RustProgram.v
theories/RustRefine.v
theories/RustGrammar.v
theories/RustValidate.v
theories/RustNormal.v
theories/RustAccess.v
theories/RustTags.v
theories/RustLib.v
theories/RustSays.v
theories/PropsSource.v
theories/RustOracle.v
theories/RustGenerated.v
theories/PropsGenerated.v
theories/Containers.v
theories/Keyed.v
theories/PropsKeyed.v
theories/PropsUnique.v
theories/PropsEnds.v
theories/RustMended.v
theories/RustMendedAccess.v
theories/PropsMended.v
theories/RustClient.v
theories/RustClientSound.v
theories/PropsClient.v
theories/RustCount.v
theories/RustSteps.v
theories/RustStepsNormal.v
theories/RustStepsLib.v
theories/RustStepsSays.v
theories/RustStepsIter.v
theories/PropsSteps.v
theories/AbnfMachine.v
theories/PropsAbnfMachine.v
theories/GrammarArms.v
theories/PropsArms.v
theories/RustFuel.v
theories/RustTestText.v
theories/RustTests.v
theories/PropsTests.v
theories/RustBranches.v
theories/RustUnused.v
theories/PropsBranches.v
theories/RustEdits.v
theories/RustSame.v
theories/RustSilent.v
theories/RustSwap.v
theories/RustWide.v
theories/PropsEdits.v
theories/PropsSwap.v
