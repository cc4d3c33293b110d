-Q theories Verif
theories/Av1Model.v
theories/Av1Proofs.v
theories/Av1Proofs2.v
theories/Av1Proofs3.v
theories/Av1Proofs4.v
theories/Av1Props.v
theories/Av1Spec.v
theories/Base.v
theories/BaseFacts.v
theories/Brute.v
theories/BufRxContig.v
theories/BufRxModel.v
theories/BufRxProofs.v
theories/BufRxProps.v
theories/BufRxSpec.v
theories/ChanModel.v
theories/ChanProps.v
theories/ContigModel.v
theories/ContigProofs.v
theories/ContigProps.v
theories/ContigSpec.v
theories/DcepModel.v
theories/DcepProps.v
theories/DemuxModel.v
theories/DemuxProps.v
theories/DemuxSpec.v
theories/EvictModel.v
theories/EvictProofs.v
theories/EvictProofs2.v
theories/EvictProps.v
theories/EvictSpec.v
theories/ExtModel.v
theories/ExtProofs.v
theories/ExtProofs2.v
theories/ExtSpec.v
theories/H264Model.v
theories/H264Proofs.v
theories/H264Proofs2.v
theories/H264Props.v
theories/H264Spec.v
theories/HeaderModel.v
theories/HeaderProofs.v
theories/HeaderProps.v
theories/HeaderSpec.v
theories/IceModel.v
theories/IceProofs.v
theories/IceProofs10.v
theories/IceProofs2.v
theories/IceProofs3.v
theories/IceProofs4.v
theories/IceProofs5.v
theories/IceProofs6.v
theories/IceProofs7.v
theories/IceProofs8.v
theories/IceProofs9.v
theories/IceProps.v
theories/IceSpec.v
theories/MtimeModel.v
theories/MtimeProps.v
theories/NackModel.v
theories/NackProofs.v
theories/NackProofs2.v
theories/NackProofs3.v
theories/NackProps.v
theories/NackSpec.v
theories/NalModel.v
theories/NalProofs.v
theories/NalProofs2.v
theories/NalProofs3.v
theories/NalProofs4.v
theories/NalProps.v
theories/NalRecv.v
theories/NalSpec.v
theories/NegoModel.v
theories/NegoProofs.v
theories/NegoProofs2.v
theories/NegoProofs3.v
theories/NegoProofs4.v
theories/NegoProofs5.v
theories/NegoProps.v
theories/NegoSpec.v
theories/PacerModel.v
theories/PacerProofs.v
theories/PacerProofs2.v
theories/PacerProps.v
theories/PacerProps2.v
theories/PacerProps3.v
theories/PacerSpec.v
theories/PayModel.v
theories/PayProofs.v
theories/PayProofs2.v
theories/PayProofs3.v
theories/PayProofs4.v
theories/PayProofs5.v
theories/PayProofs6.v
theories/PayProps.v
theories/PayProps2.v
theories/PaySpec.v
theories/PrioModel.v
theories/PrioProofs.v
theories/PrioProps.v
theories/PrioSpec.v
theories/ProbeModel.v
theories/ProbeProofs.v
theories/ProbeProofs2.v
theories/ProbeProofs3.v
theories/ProbeProofs4.v
theories/ProbeProofs5.v
theories/ProbeProofs6.v
theories/ProbeProps.v
theories/ProbeSpec.v
theories/RegisterModel.v
theories/RegisterProofs.v
theories/RegisterProps.v
theories/RegisterSpec.v
theories/RlistModel.v
theories/RlistProps.v
theories/RlistSpec.v
theories/RtcErr.v
theories/RtcEx.v
theories/RtcModel.v
theories/RtcProofs.v
theories/RtcProofs2.v
theories/RtcProofs3.v
theories/RtcProps.v
theories/RtcRec.v
theories/RtcSpec.v
theories/RtcpModel.v
theories/RtcpNoPanic.v
theories/RtcpPackProofs.v
theories/RtcpPackProps.v
theories/RtcpProofs.v
theories/RtcpProps.v
theories/RtcpRound.v
theories/RtcpSpec.v
theories/RxFbProofs.v
theories/RxFbProofs2.v
theories/RxFbProofs3.v
theories/RxFbProps.v
theories/RxFbSpec.v
theories/RxModel.v
theories/RxProofs.v
theories/RxProofs2.v
theories/RxProofs3.v
theories/RxProofs4.v
theories/RxProofs5.v
theories/RxProofs6.v
theories/RxProofs7.v
theories/RxProofs8.v
theories/RxProps.v
theories/RxReg.v
theories/RxSpec.v
theories/RxSr.v
theories/SctpModel.v
theories/SctpProofs.v
theories/SctpProofs2.v
theories/SctpProofs3.v
theories/SctpProofs4.v
theories/SctpProofs5.v
theories/SctpProofs6.v
theories/SctpProofs7.v
theories/SctpProofs8.v
theories/SctpProofs9.v
theories/SctpProps.v
theories/SctpProps2.v
theories/SctpRec.v
theories/SctpSpec.v
theories/SdpModel.v
theories/SdpProofs1.v
theories/SdpProofs2.v
theories/SdpProofs3.v
theories/SdpProofs4.v
theories/SdpProofs5.v
theories/SdpProofs6.v
theories/SdpProofs7.v
theories/SdpProofs8.v
theories/SdpProofs9.v
theories/SdpProps.v
theories/SdpSpec.v
theories/SendQueueModel.v
theories/SendQueueProofs.v
theories/SendQueueProps.v
theories/SendQueueSpec.v
theories/SeqModel.v
theories/SeqProofs.v
theories/SeqProps.v
theories/SesClear.v
theories/SesModel.v
theories/SesProofs.v
theories/SesProofs2.v
theories/SesProofs3.v
theories/SesProofs4.v
theories/SesProofs5.v
theories/SesProps.v
theories/SesSpec.v
theories/SrProofs.v
theories/SrProps.v
theories/SrSpec.v
theories/SrtpModel.v
theories/SrtpProofs.v
theories/SrtpProofs2.v
theories/SrtpProofs3.v
theories/SrtpProofs4.v
theories/SrtpProps.v
theories/SrtpSpec.v
theories/StunModel.v
theories/StunProofs.v
theories/StunProofs2.v
theories/StunProofs3.v
theories/StunProofs4.v
theories/StunProps.v
theories/StunSpec.v
theories/TextFacts.v
theories/TextModel.v
theories/TwccModel.v
theories/TwccProofs.v
theories/TwccProps.v
theories/TwccRecvModel.v
theories/TwccRecvNoPanic.v
theories/TwccRecvProofs.v
theories/TwccRecvProps.v
theories/TwccRecvQueue.v
theories/TwccRecvSpec.v
theories/TwccSendModel.v
theories/TwccSendProofs.v
theories/TwccSendProps.v
theories/TwccSpec.v
theories/TxModel.v
theories/TxProofs.v
theories/TxProofs2.v
theories/TxProofs3.v
theories/TxProofs4.v
theories/TxProps.v
theories/TxSpec.v
theories/Utf8Props.v
theories/VlaModel.v
theories/VlaProofs.v
theories/VlaProofs2.v
theories/VlaProps.v
theories/VlaSpec.v
theories/Vp8DescProofs.v
theories/Vp8Model.v
theories/Vp8Proofs.v
theories/Vp8Props.v
theories/Vp8Spec.v
theories/Vp9Model.v
theories/Vp9Proofs.v
theories/Vp9Proofs2.v
theories/Vp9Proofs3.v
theories/Vp9Props.v
theories/Vp9Spec.v
theories/WrModel.v
theories/WrProofs.v
theories/WrProofs2.v
theories/WrProofs3.v
theories/WrProofs4.v
theories/WrProps.v
theories/WrSpec.v
