-Q theories Verif
theories/Base.v
theories/Utf8.v
theories/DisCommon.v
theories/DisLists.v
theories/DisSimman.v
theories/DisLogistics.v
theories/DisWarfare.v
theories/DisEntity.v
theories/DisEmission.v
theories/DisRadio.v
theories/DisIff.v
theories/IffWords.v
theories/DisHeader.v
theories/DisPdu.v
theories/DisPacket.v
theories/SpecWire.v
theories/SpecSize.v
theories/SpecPanic.v
theories/L_Wire.v
theories/L_Size.v
theories/L_Total.v
theories/L_Length.v
theories/Props_Wire.v
theories/L_Panic.v
theories/Props_Panic.v
theories/Props_Total.v
theories/Props_Length.v
theories/DisText.v
theories/L_Records.v
theories/L_Text.v
theories/Props_Records.v
theories/Props_Text.v
theories/EnumGen.v
theories/L_Enum.v
theories/Props_Enum.v
theories/CdisBase.v
theories/CdisRecords.v
theories/CdisBodies1.v
theories/CdisBodies2.v
theories/CdisIff.v
theories/CdisPdu.v
theories/SpecCdis.v
theories/L_CdisBits.v
theories/Props_CdisBits.v
theories/CdisSized.v
theories/SpecCdisSized.v
theories/L_CdisSized.v
theories/Props_CdisSized.v
theories/SpecCdisPdu.v
theories/L_CdisPdu.v
theories/Props_CdisPdu.v
theories/L_CdisShort.v
theories/Props_CdisShort.v
theories/CdisCodec1.v
theories/CdisCodec2.v
theories/CdisCodec3.v
theories/SpecCodec.v
theories/L_Codec.v
theories/Props_Codec.v
theories/L_CodecDec.v
theories/Props_CodecDec.v
theories/L_CodecSim.v
theories/Props_CodecSim.v
theories/Gateway.v
theories/SpecGateway.v
theories/L_Stats.v
theories/Props_Stats.v
theories/L_Gateway.v
theories/Props_Gateway.v
theories/GatewaySys.v
theories/SpecGatewaySys.v
theories/L_GatewaySys.v
theories/Props_GatewaySys.v
theories/L_GatewayLive.v
theories/Props_GatewayLive.v
theories/SpecGatewayEmpty.v
theories/L_GatewayEmpty.v
theories/Props_GatewayEmpty.v
theories/GatewayConfig.v
theories/SpecConfig.v
theories/L_Config.v
theories/Props_Config.v
theories/SpecFloatValue.v
theories/SpecContent.v
theories/SpecBody.v
theories/SpecCross.v
theories/FloatReal.v
theories/FloatBits.v
theories/FloatBits64.v
theories/L_CodecNum.v
theories/L_CodecPrec.v
theories/Props_CodecPrec.v
theories/L_CodecDrift.v
theories/Props_CodecDrift.v
theories/L_CodecContent.v
theories/Props_CodecContent.v
theories/L_CdisVp.v
theories/Props_CdisVp.v
theories/L_CodecTimeout.v
theories/L_CodecTime.v
theories/Props_CodecTimeout.v
theories/Props_CodecTime.v
theories/L_CodecPartial.v
theories/Props_CodecPartial.v
theories/CrossFits.v
theories/SpecCdisRelay.v
theories/L_CdisRelay.v
theories/SpecCdisFlags.v
theories/L_CdisFlags.v
theories/Props_CdisFlags.v
theories/Props_CdisRelay.v
theories/SpecCrossIff.v
theories/CrossIff.v
theories/SpecCrossEe.v
theories/SpecModes.v
theories/Parsed.v
theories/SpecRelay.v
theories/ParsedBodies.v
theories/L_Modes.v
theories/Props_Modes.v
theories/L_Relay.v
theories/Props_Relay.v
theories/SpecLayout.v
theories/Layout.v
theories/LayoutP.v
theories/LayoutP2.v
theories/L_Layout.v
theories/SpecLegible.v
theories/LayoutC.v
theories/LayoutC2.v
theories/LegibleG.v
theories/L_Legible.v
theories/Props_Layout.v
theories/Props_Legible.v
theories/Geodesy.v
theories/SpecGeodesy.v
theories/GeodesyLemmas.v
theories/GeodesyEst.v
theories/GeodesyStep.v
theories/GeodesyInv.v
theories/L_Geodesy.v
theories/Props_Geodesy.v
theories/SpecPlace.v
theories/SpecIffWords.v
theories/IffWordsLemmas.v
theories/L_IffWords.v
theories/Props_IffWords.v
theories/BuilderCalls.v
theories/Builders.v
theories/SpecBuilders.v
theories/L_Builders.v
theories/Props_Builders.v
theories/L_GeodesyCodec.v
theories/Props_GeodesyCodec.v
theories/L_Cross.v
theories/Props_Cross.v
theories/L_CrossIff.v
theories/Props_CrossIff.v
theories/L_CrossEe.v
theories/Props_CrossEe.v
theories/GatewaySite.v
theories/SpecSite.v
theories/L_Site.v
theories/Props_Site.v
theories/Defaults.v
theories/L_Defaults.v
theories/Props_Defaults.v
