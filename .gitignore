*.lia.cache
*.nia.cache
.lia.cache
.nia.cache
*.aux
*.vo
*.vos
*.vok
*.glob
