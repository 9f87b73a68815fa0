-Q theories Verif
theories/Base.v
theories/Spec.v
theories/Quad.v
theories/Interp.v
theories/Erf.v
theories/QuadFacts.v
theories/InterpFacts.v
theories/BaseFacts.v
theories/ErfFacts.v
theories/NumFacts.v
theories/HodModel.v
theories/HodSpec.v
theories/HodFacts.v
theories/HodFacts2.v
theories/HodExample.v
theories/Dewiggle.v
theories/PkModel.v
theories/PkSpec.v
theories/PkFacts.v
theories/PkFacts2.v
theories/PkFacts3.v
theories/PkFacts4.v
theories/PkFacts5.v
theories/PkFacts6.v
theories/PkFacts7.v
theories/PkFacts8.v
theories/PkExample.v
theories/PkFacts9.v
theories/AddModel.v
theories/AddSpec.v
theories/AddFacts.v
theories/AddFacts2.v
theories/AddFacts3.v
theories/CacheModel.v
theories/CacheTable.v
theories/CacheSpec.v
theories/CacheFacts.v
theories/CacheSpectra.v
theories/Validate.v
theories/ConfSpec.v
theories/ConfFacts.v
theories/IaModel.v
theories/IaSpec.v
theories/AngFacts.v
theories/AngFacts2.v
theories/AngFacts3.v
theories/IaFacts.v
theories/IaFacts2.v
theories/IaFacts3.v
theories/BnlModel.v
theories/BnlSpec.v
theories/BnlFacts.v
theories/BnlFacts2.v
theories/PipeModel.v
theories/PipeSpec.v
theories/PipeFacts.v
theories/PipeFacts2.v
theories/PipeFacts3.v
theories/PipeFacts4.v
theories/PipeFacts5.v
theories/PipeFacts6.v
theories/PipeExample.v
theories/FftModel.v
theories/FftSpec.v
theories/FftFacts.v
theories/FftFacts2.v
theories/FftFacts3.v
theories/FftFacts4.v
theories/FftFacts5.v
theories/FftFacts6.v
theories/RsModel.v
theories/RsSpec.v
theories/RsFacts.v
theories/RsFacts2.v
theories/RsFacts3.v
theories/FftFacts7.v
theories/RsExample.v
theories/HmiModel.v
theories/HmiSpec.v
theories/HmiFacts.v
theories/HmiFacts2.v
theories/HmiFacts3.v
theories/HmiFacts4.v
theories/HmiFacts5.v
theories/HmiFacts6.v
theories/HmiExample.v
theories/ObsModel.v
theories/ObsSpec.v
theories/ObsFacts.v
theories/UellModel.v
theories/UellSpec.v
theories/UellFacts.v
theories/OgataModel.v
theories/OgataSpec.v
theories/OgataFacts.v
theories/NumProps.v
theories/HodProps.v
theories/PkProps.v
theories/DampFacts.v
theories/PkProps2.v
theories/AddProps.v
theories/CacheProps.v
theories/ConfProps.v
theories/IaProps.v
theories/BnlProps.v
theories/PipeProps.v
theories/RsProps.v
theories/HmiProps.v
theories/ObsProps.v
theories/UellProps.v
theories/OgataProps.v
theories/RelSpec.v
theories/RelFacts.v
theories/RelFacts2.v
theories/RelFacts3.v
theories/RelFacts4.v
theories/RelFacts5.v
theories/RelProps.v
theories/OptModel.v
theories/OptSpec.v
theories/OptFacts.v
theories/OptFacts2.v
theories/OptFacts3.v
theories/OptFacts4.v
theories/OptFacts5.v
theories/OptProps.v
theories/KwModel.v
theories/KwSpec.v
theories/KwFacts.v
theories/KwFacts2.v
theories/KwFacts3.v
theories/KwFacts4.v
theories/KwFacts5.v
theories/KwExample.v
theories/KwProps.v
theories/ChainModel.v
theories/ChainSpec.v
theories/ChainFacts.v
theories/ChainFacts2.v
theories/ChainFacts3.v
theories/ChainFacts4.v
theories/ChainFacts5.v
theories/ChainFacts6.v
theories/ChainExample.v
theories/ChainFacts7.v
theories/ChainProps.v
theories/TpModel.v
theories/TpSpec.v
theories/TpFacts.v
theories/TpFacts2.v
theories/TpFacts3.v
theories/TpFacts4.v
theories/TpFacts5.v
theories/TpFacts6.v
theories/TpFacts7.v
theories/TpFacts8.v
theories/TpExample.v
theories/TpFacts9.v
theories/TpProps.v
theories/PredModel.v
theories/MiniModel.v
theories/PredSpec.v
theories/PredFacts.v
theories/PredFacts2.v
theories/PredFacts3.v
theories/PredFacts4.v
theories/PredFacts5.v
theories/PredProps.v
theories/MiniSpec.v
theories/MiniFacts.v
theories/MiniFacts2.v
theories/MiniFacts3.v
theories/MiniFacts4.v
theories/MiniFacts5.v
theories/MiniFacts6.v
theories/MiniFacts7.v
theories/MiniFacts8.v
theories/MiniProps.v
theories/AupModel.v
theories/AupSpec.v
theories/AupFacts.v
theories/AupFacts2.v
theories/AupFacts3.v
theories/AupFacts4.v
theories/AupFacts5.v
theories/AupSpec2.v
theories/AupFacts6.v
theories/AupExample.v
theories/AupProps.v
theories/LumSpec.v
theories/LumFacts.v
theories/LumFacts2.v
theories/LiaModel.v
theories/LiaSpec.v
theories/LiaFacts.v
theories/LumProps.v
theories/LhModel.v
theories/LhSpec.v
theories/LhFacts.v
theories/LhFacts2.v
theories/LhFacts3.v
theories/LhFacts4.v
theories/LhFacts5.v
theories/LhFacts6.v
theories/LhFacts7.v
theories/LhFacts8.v
theories/LhFacts9.v
theories/LhSpec2.v
theories/LhFacts10.v
theories/LhFacts11.v
theories/LhProps.v
theories/LrModel.v
theories/LrSpec.v
theories/LrFacts.v
theories/LrFacts2.v
theories/LrFacts3.v
theories/LrFacts4.v
theories/LrProps.v
theories/LkModel.v
theories/LkSpec.v
theories/LkSpec2.v
theories/LkSpec3.v
theories/LkFacts.v
theories/LkFacts2.v
theories/LkFacts3.v
theories/LkFacts4.v
theories/LkFacts5.v
theories/LkFacts6.v
theories/LkFacts7.v
theories/LkFacts8.v
theories/LkExample.v
theories/LkFacts9.v
theories/LkProps.v
theories/LbModel.v
theories/LbSpec.v
theories/LbFacts.v
theories/LbFacts2.v
theories/LbFacts3.v
theories/LbProps.v
theories/LgModel.v
theories/LgSpec.v
theories/LgFacts.v
theories/LgFacts2.v
theories/LgFacts3.v
theories/LgFacts4.v
theories/LgProps.v
theories/LnModel.v
theories/LnSpec.v
theories/LnFacts.v
theories/LnProps.v
