-Q theories Verif
theories/Base.v
theories/BaseProofs.v
theories/Exec.v
theories/ExecProofs.v
theories/VotingModel.v
theories/HooksModel.v
theories/VotingSpec.v
theories/VotingProofs.v
theories/SingleModel.v
theories/SingleSpec.v
theories/SingleProofs.v
theories/SingleLife.v
theories/SingleTally.v
theories/SingleFinal.v
theories/SingleExamples.v
theories/SingleClaims.v
theories/SingleProps.v
theories/VotingProps.v
theories/MultModel.v
theories/MultSpec.v
theories/MultProofs.v
theories/MultRules.v
theories/MultLife.v
theories/MultTally.v
theories/MultFinal.v
theories/MultMore.v
theories/MultExamples.v
theories/MultClaims.v
theories/MultProps.v
theories/CondModel.v
theories/CondSpec.v
theories/CondMatrix.v
theories/CondWinner.v
theories/CondProofs.v
theories/CondLife.v
theories/CondClaims.v
theories/CondExamples.v
theories/CondProps.v
theories/PreModel.v
theories/PreSpec.v
theories/PreSingle.v
theories/PreProofs.v
theories/PreJoint.v
theories/PreClaims.v
theories/ApproverModel.v
theories/ApproverClaims.v
theories/PreExamples.v
theories/PreProps.v
theories/Plain.v
theories/PlainProofs.v
theories/StoreModel.v
theories/StoreProofs.v
theories/StakeModel.v
theories/StakeSpec.v
theories/StakeProofs.v
theories/StakeClaims.v
theories/StakeExamples.v
theories/StakeProps.v
theories/LedgerProofs.v
theories/ActiveModel.v
theories/TokModel.v
theories/TokSpec.v
theories/TokProofs.v
theories/TokClaims.v
theories/TokExamples.v
theories/TokProps.v
theories/Compose.v
theories/Project.v
theories/ComposeProofs.v
theories/JointModel.v
theories/JointProofs.v
theories/JointSpec.v
theories/JointClaims.v
theories/JointExamples.v
theories/JointProps.v
theories/NftModel.v
theories/NftSpec.v
theories/NftProofs.v
theories/NftClaims.v
theories/NftExamples.v
theories/NftProps.v
theories/WormModel.v
theories/WormSpec.v
theories/WormProofs.v
theories/WormClaims.v
theories/WormExamples.v
theories/WormProps.v
theories/VestModel.v
theories/VestSpec.v
theories/VestProofs.v
theories/VestClaims.v
theories/VestExamples.v
theories/VestProps.v
theories/ExtModel.v
theories/ExtSpec.v
theories/ExtProofs.v
theories/ExtClaims.v
theories/ExtExamples.v
theories/ExtProps.v
theories/DistModel.v
theories/DistSpec.v
theories/DistProofs.v
theories/DistClaims.v
theories/DistExamples.v
theories/DistProps.v
theories/FundModel.v
theories/FundSpec.v
theories/FundProofs.v
theories/FundClaims.v
theories/FundExamples.v
theories/FundProps.v
theories/RewModel.v
theories/RewSpec.v
theories/RewProofs.v
theories/RewAccount.v
theories/RewPoke.v
theories/RewClaims.v
theories/RewExamples.v
theories/RewProps.v
theories/CoreModel.v
theories/CoreSpec.v
theories/CoreProofs.v
theories/CoreClaims.v
theories/CoreExamples.v
theories/CoreProps.v
theories/SwapModel.v
theories/SwapSpec.v
theories/SwapProofs.v
theories/SwapClaims.v
theories/SwapFirst.v
theories/SwapExamples.v
theories/SwapProps.v
theories/PlainMore.v
theories/IssuerModel.v
theories/IssuerSpec.v
theories/IssuerProofs.v
theories/IssuerClaims.v
theories/IssuerExamples.v
theories/IssuerProps.v
theories/RolesModel.v
theories/RolesSpec.v
theories/RolesProofs.v
theories/RolesClaims.v
theories/RolesExamples.v
theories/RolesProps.v
theories/PageModel.v
theories/PageSpec.v
theories/PageProofs.v
theories/PageClaims.v
theories/PageExamples.v
theories/PageProps.v
theories/OnftModel.v
theories/OnftSpec.v
theories/OnftProofs.v
theories/OnftClaims.v
theories/OnftExamples.v
theories/OnftProps.v
theories/RecordsSpec.v
theories/RecordsClaims.v
theories/RecordsExamples.v
theories/RecordsProps.v
theories/PayModel.v
theories/PaySpec.v
theories/PayProofs.v
theories/PayClaims.v
theories/PayExamples.v
theories/PayProps.v
theories/AdmModel.v
theories/AdmSpec.v
theories/AdmClaims.v
theories/AdmExamples.v
theories/AdmProps.v
theories/C20Model.v
theories/C20Spec.v
theories/C20Proofs.v
theories/C20Claims.v
theories/C20Examples.v
theories/C20Props.v
theories/GrpModel.v
theories/GrpSpec.v
theories/GrpProofs.v
theories/GrpClaims.v
theories/GrpExamples.v
theories/GrpProps.v
theories/ElectSpec.v
theories/ElectProofs.v
theories/ElectClaims.v
theories/ElectExamples.v
theories/ElectProps.v
theories/MigModel.v
theories/MigSpec.v
theories/MigProofs.v
theories/MigClaims.v
theories/MigExamples.v
theories/MigProps.v
theories/MigCoreModel.v
theories/MigCoreSpec.v
theories/MigCoreClaims.v
theories/MigCoreExamples.v
theories/MigCoreProps.v
theories/MigStakeModel.v
theories/MigStakeSpec.v
theories/MigStakeClaims.v
theories/MigStakeExamples.v
theories/MigStakeProps.v
theories/DaoModel.v
theories/DaoSpec.v
theories/DaoProofs.v
theories/DaoClaims.v
theories/DaoExamples.v
theories/DaoProps.v
theories/MgrModel.v
theories/MgrSpec.v
theories/MgrProofs.v
theories/MgrClaims.v
theories/MgrExamples.v
theories/MgrProps.v
theories/FanModel.v
theories/FanSpec.v
theories/FanClaims.v
theories/FanExamples.v
theories/FanProps.v
theories/DenModel.v
theories/DenSpec.v
theories/DenClaims.v
theories/DenExamples.v
theories/DenProps.v
theories/PreMigModel.v
theories/PreMigSpec.v
theories/PreMigClaims.v
theories/PreMigExamples.v
theories/PreMigProps.v
theories/VerModel.v
theories/VerSpec.v
theories/VerClaims.v
theories/VerExamples.v
theories/VerProps.v
theories/PreMultModel.v
theories/PreMultSpec.v
theories/PreMultDone.v
theories/PreMultJoint.v
theories/PreMultClaims.v
theories/PreMultExamples.v
theories/PreMultProps.v
theories/RewHookProofs.v
theories/RewHookClaims.v
theories/RewHookExamples.v
theories/RewHookProps.v
theories/TokNewModel.v
theories/TokNewSpec.v
theories/TokNewProofs.v
theories/TokNewClaims.v
theories/TokNewExamples.v
theories/TokNewProps.v
theories/RewTokModel.v
theories/RewTokSpec.v
theories/RewTokProofs.v
theories/RewTokClaims.v
theories/RewTokExamples.v
theories/RewTokProps.v
theories/GovTokModel.v
theories/GovTokSpec.v
theories/GovTokProofs.v
theories/GovTokClaims.v
theories/GovTokExamples.v
theories/GovTokProps.v
theories/WholeModel.v
theories/WholeSpec.v
theories/WholeProofs.v
theories/WholeClaims.v
theories/WholeExamples.v
theories/WholeProps.v
theories/CollModel.v
theories/NftNewModel.v
theories/NftNewSpec.v
theories/NftNewProofs.v
theories/NftNewClaims.v
theories/NftNewExamples.v
theories/NftNewProps.v
theories/MDaoModel.v
theories/MDaoSpec.v
theories/MDaoProofs.v
theories/MDaoClaims.v
theories/MDaoExamples.v
theories/MDaoProps.v
theories/MWholeModel.v
theories/MWholeSpec.v
theories/MWholeProofs.v
theories/MWholeClaims.v
theories/MWholeExamples.v
theories/MWholeProps.v
theories/CDaoModel.v
theories/CDaoSpec.v
theories/CDaoProofs.v
theories/CDaoClaims.v
theories/CDaoExamples.v
theories/CDaoProps.v
theories/CWholeModel.v
theories/CWholeSpec.v
theories/CWholeProofs.v
theories/CWholeClaims.v
theories/CWholeExamples.v
theories/CWholeProps.v
theories/ExecFrame.v
theories/SettleModel.v
theories/SettleSpec.v
theories/SettleSingle.v
theories/SettleOwed.v
theories/SettlePre.v
theories/SettleProofs.v
theories/SettleCalls.v
theories/SettleClaims.v
theories/SettleExamples.v
theories/SettleProps.v
theories/MSettleModel.v
theories/MSettleSpec.v
theories/MSettleMult.v
theories/MSettleProofs.v
theories/MSettleCalls.v
theories/MSettleClaims.v
theories/MSettleExamples.v
theories/MSettleProps.v
theories/ExchModel.v
theories/ExchSpec.v
theories/ExchProofs.v
theories/ExchClaims.v
theories/ExchExamples.v
theories/ExchProps.v
theories/MExchModel.v
theories/MExchSpec.v
theories/MExchProofs.v
theories/MExchClaims.v
theories/MExchExamples.v
theories/MExchProps.v
theories/TwoModel.v
theories/TwoSpec.v
theories/TwoProofs.v
theories/TwoInv.v
theories/TwoPast.v
theories/TwoClaims.v
theories/TwoExamples.v
theories/TwoProps.v
theories/VAuthSpec.v
theories/VAuthClaims.v
theories/VAuthExamples.v
theories/VAuthProps.v
theories/FlowModel.v
theories/FlowSpec.v
theories/FlowClaims.v
theories/FlowExamples.v
theories/FlowProps.v
theories/RewGrpModel.v
theories/RewGrpSpec.v
theories/RewGrpProofs.v
theories/RewGrpClaims.v
theories/RewGrpExamples.v
theories/RewGrpProps.v
theories/FundOnModel.v
theories/FundOnSpec.v
theories/FundOnProofs.v
theories/FundOnClaims.v
theories/FundOnExamples.v
theories/FundOnProps.v
theories/RewOnModel.v
theories/RewOnSpec.v
theories/RewOnProofs.v
theories/RewOnClaims.v
theories/RewOnExamples.v
theories/RewOnProps.v
theories/CExchModel.v
theories/CExchSpec.v
theories/CExchProofs.v
theories/CExchClaims.v
theories/CExchExamples.v
theories/CExchProps.v
theories/ManyModel.v
theories/ManySpec.v
theories/ManySingle.v
theories/ManyMult.v
theories/ManyCond.v
theories/ManyProofs.v
theories/ManyClaims.v
theories/ManyExamples.v
theories/ManyProps.v
theories/MultChoices.v
theories/ManyLiveSpec.v
theories/ManyLive.v
theories/ManyLiveExamples.v
theories/ManyLiveProps.v
theories/VQueryModel.v
theories/VQueryClaims.v
theories/VQueryExamples.v
theories/VQueryProps.v
theories/StakeRunSpec.v
theories/StakeRun.v
theories/StakeRunExamples.v
theories/StakeRunProps.v
theories/StakeSplitSpec.v
theories/StakeSplit.v
theories/StakeSplitExamples.v
theories/StakeSplitProps.v
theories/ExtShareSpec.v
theories/ExtShare.v
theories/ExtShareExamples.v
theories/ExtShareProps.v
theories/ExtStuck.v
theories/ExtStuckExamples.v
theories/ExtStuckProps.v
theories/RewLost.v
theories/RewLostExamples.v
theories/RewLostProps.v
